(* Known answers: the published digests of "abc". Tests of the transcription, not proofs. *)
From Verif Require Import Words CipherBase TaskModel HashModel.
Open Scope N_scope.
Definition abc : list N := [97; 98; 99].
Definition out_of (h : hash_params) : option (list N) := match hash_processor h false (Some abc) 3 with Done r => hr_out r | UB => None end.
Example md4_abc : out_of md4 = Some [164; 72; 1; 122; 175; 33; 216; 82; 95; 193; 10; 232; 122; 166; 114; 157].
Proof. vm_compute. reflexivity. Qed.
Example md5_abc : out_of md5 = Some [144; 1; 80; 152; 60; 210; 79; 176; 214; 150; 63; 125; 40; 225; 127; 114].
Proof. vm_compute. reflexivity. Qed.
Example ripemd128_abc : out_of ripemd128 = Some [193; 74; 18; 25; 156; 102; 228; 186; 132; 99; 107; 15; 105; 20; 76; 119].
Proof. vm_compute. reflexivity. Qed.
Example ripemd160_abc : out_of ripemd160 = Some [142; 178; 8; 247; 224; 93; 152; 122; 155; 4; 74; 142; 152; 198; 176; 135; 241; 90; 11; 252].
Proof. vm_compute. reflexivity. Qed.
Example sha1_abc : out_of sha1 = Some [169; 153; 62; 54; 71; 6; 129; 106; 186; 62; 37; 113; 120; 80; 194; 108; 156; 208; 216; 157].
Proof. vm_compute. reflexivity. Qed.
Example sha224_abc : out_of sha224 = Some [35; 9; 125; 34; 52; 5; 216; 34; 134; 66; 164; 119; 189; 162; 85; 179; 42; 173; 188; 228; 189; 160; 179; 247; 227; 108; 157; 167].
Proof. vm_compute. reflexivity. Qed.
Example sha256_abc : out_of sha256 = Some [186; 120; 22; 191; 143; 1; 207; 234; 65; 65; 64; 222; 93; 174; 34; 35; 176; 3; 97; 163; 150; 23; 122; 156; 180; 16; 255; 97; 242; 0; 21; 173].
Proof. vm_compute. reflexivity. Qed.
Example sha384_abc : out_of sha384 = Some [203; 0; 117; 63; 69; 163; 94; 139; 181; 160; 61; 105; 154; 198; 80; 7; 39; 44; 50; 171; 14; 222; 209; 99; 26; 139; 96; 90; 67; 255; 91; 237; 128; 134; 7; 43; 161; 231; 204; 35; 88; 186; 236; 161; 52; 200; 37; 167].
Proof. vm_compute. reflexivity. Qed.
Example sha512_abc : out_of sha512 = Some [221; 175; 53; 161; 147; 97; 122; 186; 204; 65; 115; 73; 174; 32; 65; 49; 18; 230; 250; 78; 137; 169; 126; 162; 10; 158; 238; 230; 75; 85; 211; 154; 33; 146; 153; 42; 39; 79; 193; 168; 54; 186; 60; 35; 163; 254; 235; 189; 69; 77; 68; 35; 100; 60; 232; 14; 42; 154; 201; 79; 165; 76; 164; 159].
Proof. vm_compute. reflexivity. Qed.
