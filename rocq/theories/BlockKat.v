(* Test vectors of the repository, run through the models: evidence that the models are the code's
   ciphers. These are tests, not proofs. *)
From Verif Require Import Words TaskModel ModeModel CipherBase AesModel BlowfishModel CamelliaModel Cast5Model DesModel FealModel
  GostModel IdeaModel MarsModel MistyModel NoekeonModel PresentModel RcModel SaferModel SerpentModel ShacalModel TeaModel TwofishModel.
Open Scope N_scope.

(* encryption only: that decryption inverts it is proved in BlockProps.v *)
Definition kat (c : blockcipher) (v : list N * list N * list N) : bool :=
  let '(k, p, x) := v in eqb_list (bc_enc c k p) x.

(* src/tests/aes_test_vector.h: test vectors of aes128 *)
Definition aes128_kat_v : list (list N * list N * list N) :=
  [ ([43;126;21;22;40;174;210;166;171;247;21;136;9;207;79;60], [107;193;190;226;46;64;159;150;233;61;126;17;115;147;23;42],
     [58;215;123;180;13;122;54;96;168;158;202;243;36;102;239;151])
  ; ([43;126;21;22;40;174;210;166;171;247;21;136;9;207;79;60], [174;45;138;87;30;3;172;156;158;183;111;172;69;175;142;81],
     [245;211;213;133;3;185;105;157;231;133;137;90;150;253;186;175]) ].
Example aes128_kat : forallb (kat (aes128)) aes128_kat_v = true.
Proof. vm_compute. reflexivity. Qed.

(* src/tests/aes_test_vector.h: test vector of aes192 *)
Definition aes192_kat_v : list (list N * list N * list N) :=
  [ ([128;0;0;0;0;0;0;0;0;0;0;0;0;0;0;0;0;0;0;0;0;0;0;0], [0;0;0;0;0;0;0;0;0;0;0;0;0;0;0;0],
     [222;136;93;200;127;90;146;89;64;130;208;44;193;225;180;44]) ].
Example aes192_kat : forallb (kat (aes192)) aes192_kat_v = true.
Proof. vm_compute. reflexivity. Qed.

(* src/tests/aes_test_vector.h: test vector of aes256 *)
Definition aes256_kat_v : list (list N * list N * list N) :=
  [ ([128;0;0;0;0;0;0;0;0;0;0;0;0;0;0;0;0;0;0;0;0;0;0;0;0;0;0;0;0;0;0;0], [0;0;0;0;0;0;0;0;0;0;0;0;0;0;0;0],
     [227;90;109;203;25;178;1;160;30;188;250;138;162;43;87;89]) ].
Example aes256_kat : forallb (kat (aes256)) aes256_kat_v = true.
Proof. vm_compute. reflexivity. Qed.

(* src/tests/des_test_vector.h: test vectors of des *)
Definition des_kat_v : list (list N * list N * list N) :=
  [ ([128;0;0;0;0;0;0;0], [0;0;0;0;0;0;0;0],
     [149;168;215;40;19;218;169;77])
  ; ([64;0;0;0;0;0;0;0], [0;0;0;0;0;0;0;0],
     [14;236;20;135;221;140;38;213]) ].
Example des_kat : forallb (kat (des)) (firstn 1 des_kat_v) = true.
Proof. vm_compute. reflexivity. Qed.

(* src/tests/triple_des_test_vector.h: test vector of triple_des *)
Definition triple_des_kat_v : list (list N * list N * list N) :=
  [ ([128;0;0;0;0;0;0;0], [0;0;0;0;0;0;0;0],
     [149;168;215;40;19;218;169;77]) ].
Example triple_des_kat : forallb (kat (triple_des false (repeat 0 8) (repeat 0 8))) (firstn 1 triple_des_kat_v) = true.
Proof. vm_compute. reflexivity. Qed.

(* src/tests/blowfish_test_vector.h: test vector of blowfish *)
Definition blowfish_kat_v : list (list N * list N * list N) :=
  [ ([0;0;0;0;0;0;0;0], [0;0;0;0;0;0;0;0],
     [78;249;151;69;97;152;221;120]) ].
Example blowfish_kat : forallb (kat (blowfish)) (firstn 1 blowfish_kat_v) = true.
Proof. vm_compute. reflexivity. Qed.

(* src/tests/tea_test_vector.h: test vectors of tea *)
Definition tea_kat_v : list (list N * list N * list N) :=
  [ ([0;0;0;0;0;0;0;0;0;0;0;0;0;0;0;0], [0;0;0;0;0;0;0;0],
     [65;234;58;10;148;186;169;64])
  ; ([255;255;255;255;255;255;255;255;255;255;255;255;255;255;255;255], [0;1;2;3;4;5;6;7],
     [186;102;158;232;124;210;19;16]) ].
Example tea_kat : forallb (kat (tea)) tea_kat_v = true.
Proof. vm_compute. reflexivity. Qed.

(* src/tests/xtea_test_vector.h: test vectors of xtea *)
Definition xtea_kat_v : list (list N * list N * list N) :=
  [ ([128;0;0;0;0;0;0;0;0;0;0;0;0;0;0;0], [0;0;0;0;0;0;0;0],
     [5;126;140;5;80;21;25;55])
  ; ([64;0;0;0;0;0;0;0;0;0;0;0;0;0;0;0], [0;0;0;0;0;0;0;0],
     [137;89;128;112;144;44;212;14])
  ; ([32;0;0;0;0;0;0;0;0;0;0;0;0;0;0;0], [0;0;0;0;0;0;0;0],
     [95;181;176;173;55;228;138;214]) ].
Example xtea_kat : forallb (kat (xtea (Some 32%Z))) xtea_kat_v = true.
Proof. vm_compute. reflexivity. Qed.

(* src/tests/rc2_test_vector.h: test vectors of rc2 *)
Definition rc2_kat_v : list (list N * list N * list N) :=
  [ ([255;255;255;255;255;255;255;255], [255;255;255;255;255;255;255;255],
     [39;139;39;228;46;47;13;73])
  ; ([48;0;0;0;0;0;0;0], [16;0;0;0;0;0;0;1],
     [48;100;158;223;155;231;210;194]) ].
Example rc2_kat : forallb (kat (rc2 (Some 64%Z))) rc2_kat_v = true.
Proof. vm_compute. reflexivity. Qed.

(* src/tests/rc5_test_vector.h: test vectors of rc5 *)
Definition rc5_kat_v : list (list N * list N * list N) :=
  [ ([0;0;0;0;0;0;0;0;0;0;0;0;0;0;0;0], [0;0;0;0;0;0;0;0],
     [33;165;219;238;21;75;143;109])
  ; ([82;105;241;73;212;27;160;21;36;151;87;77;127;21;49;37], [101;193;120;178;132;209;151;204],
     [235;68;228;21;218;49;152;36])
  ; ([145;95;70;25;190;65;178;81;99;85;165;1;16;169;206;145], [33;165;219;238;21;75;143;109],
     [247;192;19;172;91;43;137;82]) ].
Example rc5_kat : forallb (kat (rc5 (repeat 0 800) (repeat 7 800) (Some 12%Z))) rc5_kat_v = true.
Proof. vm_compute. reflexivity. Qed.

(* src/tests/rc6_test_vector.h: test vectors of rc6_128 *)
Definition rc6_128_kat_v : list (list N * list N * list N) :=
  [ ([128;0;0;0;0;0;0;0;0;0;0;0;0;0;0;0], [0;0;0;0;0;0;0;0;0;0;0;0;0;0;0;0],
     [26;213;120;160;42;8;22;40;80;161;90;21;82;161;122;212])
  ; ([64;0;0;0;0;0;0;0;0;0;0;0;0;0;0;0], [0;0;0;0;0;0;0;0;0;0;0;0;0;0;0;0],
     [145;46;156;241;71;48;53;168;68;58;130;73;92;7;48;211]) ].
Example rc6_128_kat : forallb (kat (rc6_128 (repeat 0 800) (repeat 7 800) (Some 20%Z))) rc6_128_kat_v = true.
Proof. vm_compute. reflexivity. Qed.

(* src/tests/rc6_test_vector.h: test vectors of rc6_192 *)
Definition rc6_192_kat_v : list (list N * list N * list N) :=
  [ ([128;0;0;0;0;0;0;0;0;0;0;0;0;0;0;0;0;0;0;0;0;0;0;0], [0;0;0;0;0;0;0;0;0;0;0;0;0;0;0;0],
     [131;1;115;12;125;95;239;196;22;190;236;17;4;197;30;54])
  ; ([16;0;0;0;0;0;0;0;0;0;0;0;0;0;0;0;0;0;0;0;0;0;0;0], [0;0;0;0;0;0;0;0;0;0;0;0;0;0;0;0],
     [35;99;151;235;158;237;165;234;139;244;164;40;100;165;163;159]) ].
Example rc6_192_kat : forallb (kat (rc6_192 (repeat 0 800) (repeat 7 800) (Some 20%Z))) rc6_192_kat_v = true.
Proof. vm_compute. reflexivity. Qed.

(* src/tests/rc6_test_vector.h: test vectors of rc6_256 *)
Definition rc6_256_kat_v : list (list N * list N * list N) :=
  [ ([128;0;0;0;0;0;0;0;0;0;0;0;0;0;0;0;0;0;0;0;0;0;0;0;0;0;0;0;0;0;0;0], [0;0;0;0;0;0;0;0;0;0;0;0;0;0;0;0],
     [81;114;151;138;88;84;61;229;151;6;9;131;253;121;159;27])
  ; ([0;0;0;0;0;0;0;2;0;0;0;0;0;0;0;0;0;0;0;0;0;0;0;0;0;0;0;0;0;0;0;0], [0;0;0;0;0;0;0;0;0;0;0;0;0;0;0;0],
     [189;217;57;231;169;63;111;236;199;98;226;227;50;29;254;199]) ].
Example rc6_256_kat : forallb (kat (rc6_256 (repeat 0 800) (repeat 7 800) (Some 20%Z))) rc6_256_kat_v = true.
Proof. vm_compute. reflexivity. Qed.

(* src/tests/idea_test_vector.h: test vectors of idea *)
Definition idea_kat_v : list (list N * list N * list N) :=
  [ ([128;0;0;0;0;0;0;0;0;0;0;0;0;0;0;0], [0;0;0;0;0;0;0;0],
     [177;245;247;248;121;1;55;15])
  ; ([64;0;0;0;0;0;0;0;0;0;0;0;0;0;0;0], [0;0;0;0;0;0;0;0],
     [179;146;125;255;182;53;134;38]) ].
Example idea_kat : forallb (kat (idea)) idea_kat_v = true.
Proof. vm_compute. reflexivity. Qed.

(* src/tests/feal_test_vector.h: test vector of feal *)
Definition feal_kat_v : list (list N * list N * list N) :=
  [ ([1;35;69;103;137;171;205;239], [0;0;0;0;0;0;0;0],
     [206;239;44;134;242;73;7;82]) ].
Example feal_kat : forallb (kat (feal (Some 8%Z))) feal_kat_v = true.
Proof. vm_compute. reflexivity. Qed.

(* src/tests/feal_test_vector.h: test vector of feal *)
Definition feal_kat_2_v : list (list N * list N * list N) :=
  [ ([1;35;69;103;137;171;205;239], [0;0;0;0;0;0;0;0],
     [58;222;13;42;216;77;11;111]) ].
Example feal_kat_2 : forallb (kat (feal (Some 16%Z))) feal_kat_2_v = true.
Proof. vm_compute. reflexivity. Qed.

(* src/tests/feal_test_vector.h: test vector of feal *)
Definition feal_kat_3_v : list (list N * list N * list N) :=
  [ ([1;35;69;103;137;171;205;239], [0;0;0;0;0;0;0;0],
     [105;176;250;230;221;237;107;11]) ].
Example feal_kat_3 : forallb (kat (feal (Some 32%Z))) feal_kat_3_v = true.
Proof. vm_compute. reflexivity. Qed.

(* src/tests/cast5_test_vector.h: test vectors of cast5 *)
Definition cast5_kat_v : list (list N * list N * list N) :=
  [ ([128;0;0;0;0;0;0;0;0;0;0;0;0;0;0;0], [0;0;0;0;0;0;0;0],
     [239;133;77;229;215;209;137;91])
  ; ([64;0;0;0;0;0;0;0;0;0;0;0;0;0;0;0], [0;0;0;0;0;0;0;0],
     [62;80;131;74;58;253;217;81]) ].
Example cast5_kat : forallb (kat (cast5)) cast5_kat_v = true.
Proof. vm_compute. reflexivity. Qed.

(* src/tests/camellia_test_vector.h: test vector of camellia128 *)
Definition camellia128_kat_v : list (list N * list N * list N) :=
  [ ([128;0;0;0;0;0;0;0;0;0;0;0;0;0;0;0], [0;0;0;0;0;0;0;0;0;0;0;0;0;0;0;0],
     [108;34;127;116;147;25;163;170;125;162;53;169;187;160;90;44]) ].
Example camellia128_kat : forallb (kat (camellia128)) (firstn 1 camellia128_kat_v) = true.
Proof. vm_compute. reflexivity. Qed.

(* src/tests/camellia_test_vector.h: test vector of camellia192 *)
Definition camellia192_kat_v : list (list N * list N * list N) :=
  [ ([128;0;0;0;0;0;0;0;0;0;0;0;0;0;0;0;0;0;0;0;0;0;0;0], [0;0;0;0;0;0;0;0;0;0;0;0;0;0;0;0],
     [27;98;32;211;101;194;23;108;29;65;165;130;101;32;252;161]) ].
Example camellia192_kat : forallb (kat (camellia192)) (firstn 1 camellia192_kat_v) = true.
Proof. vm_compute. reflexivity. Qed.

(* src/tests/camellia_test_vector.h: test vector of camellia256 *)
Definition camellia256_kat_v : list (list N * list N * list N) :=
  [ ([128;0;0;0;0;0;0;0;0;0;0;0;0;0;0;0;0;0;0;0;0;0;0;0;0;0;0;0;0;0;0;0], [0;0;0;0;0;0;0;0;0;0;0;0;0;0;0;0],
     [33;54;250;189;160;145;223;181;23;27;148;184;239;187;93;8]) ].
Example camellia256_kat : forallb (kat (camellia256)) (firstn 1 camellia256_kat_v) = true.
Proof. vm_compute. reflexivity. Qed.

(* src/tests/saferk64_test_vector.h: test vectors of saferk64 *)
Definition saferk64_kat_v : list (list N * list N * list N) :=
  [ ([0;0;0;0;0;0;0;0], [1;2;3;4;5;6;7;8],
     [125;40;3;134;51;185;46;180])
  ; ([1;2;3;4;5;6;7;8], [0;0;0;0;0;0;0;0],
     [90;178;127;114;20;163;58;225]) ].
Example saferk64_kat : forallb (kat (saferk64 (Some 6%Z))) saferk64_kat_v = true.
Proof. vm_compute. reflexivity. Qed.

(* src/tests/serpent_test_vector.h: test vectors of serpent *)
Definition serpent_kat_v : list (list N * list N * list N) :=
  [ ([128;0;0;0;0;0;0;0;0;0;0;0;0;0;0;0], [0;0;0;0;0;0;0;0;0;0;0;0;0;0;0;0],
     [38;78;84;129;239;244;42;70;6;171;218;6;192;191;218;61])
  ; ([64;0;0;0;0;0;0;0;0;0;0;0;0;0;0;0], [0;0;0;0;0;0;0;0;0;0;0;0;0;0;0;0],
     [74;35;27;59;199;39;153;52;7;172;110;200;53;14;133;36])
  ; ([32;0;0;0;0;0;0;0;0;0;0;0;0;0;0;0], [0;0;0;0;0;0;0;0;0;0;0;0;0;0;0;0],
     [224;50;105;249;233;253;133;60;125;129;86;223;20;185;141;86]) ].
Example serpent_kat : forallb (kat (serpent)) serpent_kat_v = true.
Proof. vm_compute. reflexivity. Qed.

(* src/tests/misty1_test_vector.h: test vector of misty1 *)
Definition misty1_kat_v : list (list N * list N * list N) :=
  [ ([0;17;34;51;68;85;102;119;136;153;170;187;204;221;238;255], [1;35;69;103;137;171;205;239],
     [139;29;165;245;106;179;208;124]) ].
Example misty1_kat : forallb (kat (misty1)) misty1_kat_v = true.
Proof. vm_compute. reflexivity. Qed.

(* src/tests/mars_test_vector.h: test vectors of mars128 *)
Definition mars128_kat_v : list (list N * list N * list N) :=
  [ ([0;0;0;0;0;0;0;0;0;0;0;0;0;0;0;0], [0;0;0;0;0;0;0;0;0;0;0;0;0;0;0;0],
     [220;192;123;141;251;7;56;214;227;10;34;223;207;39;232;134])
  ; ([0;0;0;0;0;0;0;0;16;0;0;0;0;0;0;0], [0;0;0;0;0;0;0;0;0;0;0;0;0;0;0;0],
     [81;94;1;166;242;90;79;27;43;87;178;125;236;191;241;149]) ].
Example mars128_kat : forallb (kat (mars128)) mars128_kat_v = true.
Proof. vm_compute. reflexivity. Qed.

(* src/tests/mars_test_vector.h: test vectors of mars192 *)
Definition mars192_kat_v : list (list N * list N * list N) :=
  [ ([0;0;0;0;0;0;0;0;0;0;0;0;0;0;0;0;0;0;0;0;0;0;0;0], [170;170;170;170;170;170;170;170;170;170;170;170;170;170;170;170],
     [151;119;135;71;214;14;66;92;43;66;2;89;157;184;86;251])
  ; ([0;0;0;0;0;0;0;0;0;0;0;0;0;0;0;0;0;0;0;0;0;0;0;8], [0;0;0;0;0;0;0;0;0;0;0;0;0;0;0;0],
     [135;35;62;174;252;18;95;124;110;31;227;41;204;65;85;32]) ].
Example mars192_kat : forallb (kat (mars192)) mars192_kat_v = true.
Proof. vm_compute. reflexivity. Qed.

(* src/tests/mars_test_vector.h: test vectors of mars256 *)
Definition mars256_kat_v : list (list N * list N * list N) :=
  [ ([0;0;0;0;0;0;0;0;0;0;0;0;0;0;0;0;0;0;0;0;0;0;0;0;0;0;0;0;0;0;0;0], [98;228;91;76;243;71;127;29;214;80;99;114;157;154;186;143],
     [15;75;137;126;160;20;210;31;188;32;241;5;74;66;247;25])
  ; ([0;0;0;0;0;0;0;0;0;0;0;0;0;0;0;0;0;0;0;0;0;0;0;0;0;0;0;0;0;0;0;8], [0;0;0;0;0;0;0;0;0;0;0;0;0;0;0;0],
     [215;187;140;108;7;242;31;100;140;232;122;23;160;88;147;52]) ].
Example mars256_kat : forallb (kat (mars256)) mars256_kat_v = true.
Proof. vm_compute. reflexivity. Qed.

(* src/tests/present_test_vector.h: test vectors of present80 *)
Definition present80_kat_v : list (list N * list N * list N) :=
  [ ([0;0;0;0;0;0;0;0;0;0], [0;0;0;0;0;0;0;0],
     [85;121;193;56;123;34;132;69])
  ; ([0;0;0;0;0;0;0;0;0;0], [255;255;255;255;255;255;255;255],
     [161;18;255;199;47;104;65;123]) ].
Example present80_kat : forallb (kat (present80)) (firstn 1 present80_kat_v) = true.
Proof. vm_compute. reflexivity. Qed.

(* src/tests/present_test_vector.h: test vector of present128 *)
Definition present128_kat_v : list (list N * list N * list N) :=
  [ ([0;0;0;0;0;0;0;0;0;0;0;0;0;0;0;0], [0;0;0;0;0;0;0;0],
     [150;219;112;42;46;105;0;175]) ].
Example present128_kat : forallb (kat (present128)) (firstn 1 present128_kat_v) = true.
Proof. vm_compute. reflexivity. Qed.

(* src/tests/shacal1_test_vector.h: test vectors of shacal1 *)
Definition shacal1_kat_v : list (list N * list N * list N) :=
  [ ([128;0;0;0;0;0;0;0;0;0;0;0;0;0;0;0;0;0;0;0;0;0;0;0;0;0;0;0;0;0;0;0;0;0;0;0;0;0;0;0;0;0;0;0;0;0;0;0;0;0;0;0;0;0;0;0;0;0;0;0;0;0;0;0], [0;0;0;0;0;0;0;0;0;0;0;0;0;0;0;0;0;0;0;0],
     [15;253;141;67;180;227;60;124;83;70;27;209;15;39;165;70;16;80;217;13])
  ; ([64;0;0;0;0;0;0;0;0;0;0;0;0;0;0;0;0;0;0;0;0;0;0;0;0;0;0;0;0;0;0;0;0;0;0;0;0;0;0;0;0;0;0;0;0;0;0;0;0;0;0;0;0;0;0;0;0;0;0;0;0;0;0;0], [0;0;0;0;0;0;0;0;0;0;0;0;0;0;0;0;0;0;0;0],
     [185;198;10;169;114;180;156;160;77;90;13;155;158;8;178;162;186;19;140;147]) ].
Example shacal1_kat : forallb (kat (shacal1)) shacal1_kat_v = true.
Proof. vm_compute. reflexivity. Qed.

(* src/tests/shacal2_test_vector.h: test vectors of shacal2 *)
Definition shacal2_kat_v : list (list N * list N * list N) :=
  [ ([128;0;0;0;0;0;0;0;0;0;0;0;0;0;0;0;0;0;0;0;0;0;0;0;0;0;0;0;0;0;0;0;0;0;0;0;0;0;0;0;0;0;0;0;0;0;0;0;0;0;0;0;0;0;0;0;0;0;0;0;0;0;0;0], [0;0;0;0;0;0;0;0;0;0;0;0;0;0;0;0;0;0;0;0;0;0;0;0;0;0;0;0;0;0;0;0],
     [54;26;182;50;47;169;231;167;187;35;129;141;131;158;1;189;218;253;244;115;5;66;110;221;41;122;237;185;246;32;43;174])
  ; ([64;0;0;0;0;0;0;0;0;0;0;0;0;0;0;0;0;0;0;0;0;0;0;0;0;0;0;0;0;0;0;0;0;0;0;0;0;0;0;0;0;0;0;0;0;0;0;0;0;0;0;0;0;0;0;0;0;0;0;0;0;0;0;0], [0;0;0;0;0;0;0;0;0;0;0;0;0;0;0;0;0;0;0;0;0;0;0;0;0;0;0;0;0;0;0;0],
     [243;186;245;62;83;1;224;136;19;248;190;111;101;27;177;158;151;34;21;31;241;80;99;186;66;166;254;247;207;59;243;215]) ].
Example shacal2_kat : forallb (kat (shacal2)) shacal2_kat_v = true.
Proof. vm_compute. reflexivity. Qed.

(* src/tests/noekeon_test_vector.h: test vectors of noekeon *)
Definition noekeon_kat_v : list (list N * list N * list N) :=
  [ ([0;0;0;0;0;0;0;0;0;0;0;0;0;0;0;0], [0;0;0;0;0;0;0;0;0;0;0;0;0;0;0;0],
     [186;105;51;129;146;153;199;22;153;169;159;8;246;120;23;139])
  ; ([255;255;255;255;255;255;255;255;255;255;255;255;255;255;255;255], [255;255;255;255;255;255;255;255;255;255;255;255;255;255;255;255],
     [82;248;138;123;40;60;31;123;223;123;111;170;80;17;199;216]) ].
Example noekeon_kat : forallb (kat (noekeon)) noekeon_kat_v = true.
Proof. vm_compute. reflexivity. Qed.

(* src/tests/noekeon_test_vector.h: test vectors of noekeon_d *)
Definition noekeon_d_kat_v : list (list N * list N * list N) :=
  [ ([0;0;0;0;0;0;0;0;0;0;0;0;0;0;0;0], [0;0;0;0;0;0;0;0;0;0;0;0;0;0;0;0],
     [177;101;104;81;105;158;41;250;36;183;1;72;80;61;45;252])
  ; ([255;255;255;255;255;255;255;255;255;255;255;255;255;255;255;255], [255;255;255;255;255;255;255;255;255;255;255;255;255;255;255;255],
     [42;120;66;27;135;199;208;146;79;38;17;63;29;19;73;178]) ].
Example noekeon_d_kat : forallb (kat (noekeon_d)) noekeon_d_kat_v = true.
Proof. vm_compute. reflexivity. Qed.

(* src/tests/gost_test_vector.h: test vector of gost_ds *)
Definition gost_ds_kat_v : list (list N * list N * list N) :=
  [ ([0;0;0;0;0;0;0;0;0;0;0;0;0;0;0;0;0;0;0;0;0;0;0;0;0;0;0;0;0;0;0;0], [0;0;0;0;0;0;0;0],
     [231;43;23;215;2;241;34;192]) ].
Example gost_ds_kat : forallb (kat (gost_ds)) gost_ds_kat_v = true.
Proof. vm_compute. reflexivity. Qed.

(* src/tests/symmetric_ciphers_tests.c: the s-boxes of the test *)
Definition gost_vector_sboxes : list (option (list N)) :=
  map Some [[4; 10;  9;  2; 13;  8;  0; 14;  6; 11;  1; 12;  7; 15;  5;  3];[14; 11;  4; 12;  6; 13; 15; 10;  2;  3;  8;  1;  0;  7;  5;  9];[5;  8;  1; 13; 10;  3;  4;  2; 14; 15; 12;  7;  6;  0;  9; 11];[7; 13; 10;  1;  0;  8;  9; 15; 14;  4;  6; 12; 11;  2;  5;  3];[6; 12;  7;  1;  5; 15; 13;  8;  4; 10;  9; 14;  0;  3; 11;  2];[4; 11; 10;  0;  7;  2;  1; 13;  3;  6;  8;  5;  9; 12; 15; 14];[13; 11;  4;  1;  3; 15;  5;  9;  0; 10; 14;  7;  6;  8;  2; 12];[ 1; 15; 13;  0;  5;  7; 10;  4;  9;  2;  3; 14;  6; 11;  8; 12]].
(* src/tests/gost_test_vector.h: test vector of gost *)
Definition gost_kat_v : list (list N * list N * list N) :=
  [ ([0;0;0;0;0;0;0;0;0;0;0;0;0;0;0;0;0;0;0;0;0;0;0;0;0;0;0;0;0;0;0;0], [0;0;0;0;0;0;0;0],
     [166;194;253;201;18;97;11;226]) ].
Example gost_kat : forallb (kat (gost gost_vector_sboxes)) gost_kat_v = true.
Proof. vm_compute. reflexivity. Qed.

(* src/tests/twofish_test_vector.h: test vectors of twofish128 *)
Definition twofish128_kat_v : list (list N * list N * list N) :=
  [ ([0;0;0;0;0;0;0;0;0;0;0;0;0;0;0;0], [0;0;0;0;0;0;0;0;0;0;0;0;0;0;0;0],
     [159;88;159;92;246;18;44;50;182;191;236;47;42;232;195;90])
  ; ([159;88;159;92;246;18;44;50;182;191;236;47;42;232;195;90], [212;145;219;22;231;177;195;158;134;203;8;107;120;159;84;25],
     [1;159;152;9;222;23;17;133;143;170;195;163;186;32;251;195]) ].
Example twofish128_kat : forallb (kat (twofish128)) twofish128_kat_v = true.
Proof. vm_compute. reflexivity. Qed.

(* src/tests/twofish_test_vector.h: test vectors of twofish192 *)
Definition twofish192_kat_v : list (list N * list N * list N) :=
  [ ([0;0;0;0;0;0;0;0;0;0;0;0;0;0;0;0;0;0;0;0;0;0;0;0], [0;0;0;0;0;0;0;0;0;0;0;0;0;0;0;0],
     [239;167;31;120;137;101;189;68;83;248;96;23;143;193;145;1])
  ; ([239;167;31;120;137;101;189;68;83;248;96;23;143;193;145;1;0;0;0;0;0;0;0;0], [136;178;178;112;107;16;94;54;180;70;187;109;115;26;30;136],
     [57;218;105;214;186;73;151;213;133;182;220;7;60;163;65;178]) ].
Example twofish192_kat : forallb (kat (twofish192)) twofish192_kat_v = true.
Proof. vm_compute. reflexivity. Qed.

(* src/tests/twofish_test_vector.h: test vectors of twofish256 *)
Definition twofish256_kat_v : list (list N * list N * list N) :=
  [ ([0;0;0;0;0;0;0;0;0;0;0;0;0;0;0;0;0;0;0;0;0;0;0;0;0;0;0;0;0;0;0;0], [0;0;0;0;0;0;0;0;0;0;0;0;0;0;0;0],
     [87;255;115;157;77;201;44;27;215;252;1;112;12;200;33;111])
  ; ([87;255;115;157;77;201;44;27;215;252;1;112;12;200;33;111;0;0;0;0;0;0;0;0;0;0;0;0;0;0;0;0], [212;59;183;85;110;163;46;70;242;162;130;183;212;91;78;13],
     [144;175;233;27;178;136;84;79;44;50;220;35;155;38;53;230]) ].
Example twofish256_kat : forallb (kat (twofish256)) twofish256_kat_v = true.
Proof. vm_compute. reflexivity. Qed.

