(* SAFER K-64, src/kryptos_saferk64.c *)
From Verif Require Import Words TaskModel ModeModel CipherBase.
Open Scope N_scope.

(* src/kryptos_saferk64.c:40-74 *)
Definition saferk64_e_lt : list N :=
  [1; 45; 226; 147; 190; 69; 21; 174; 120; 3; 135; 164; 184; 56; 207; 63;
   8; 103; 9; 148; 235; 38; 168; 107; 189; 24; 52; 27; 187; 191; 114; 247;
   64; 53; 72; 156; 81; 47; 59; 85; 227; 192; 159; 216; 211; 243; 141; 177;
   255; 167; 62; 220; 134; 119; 215; 166; 17; 251; 244; 186; 146; 145; 100; 131;
   241; 51; 239; 218; 44; 181; 178; 43; 136; 209; 153; 203; 140; 132; 29; 20;
   129; 151; 113; 202; 95; 163; 139; 87; 60; 130; 196; 82; 92; 28; 232; 160;
   4; 180; 133; 74; 246; 19; 84; 182; 223; 12; 26; 142; 222; 224; 57; 252;
   32; 155; 36; 78; 169; 152; 158; 171; 242; 96; 208; 108; 234; 250; 199; 217;
   0; 212; 31; 110; 67; 188; 236; 83; 137; 254; 122; 93; 73; 201; 50; 194;
   249; 154; 248; 109; 22; 219; 89; 150; 68; 233; 205; 230; 70; 66; 143; 10;
   193; 204; 185; 101; 176; 210; 198; 172; 30; 65; 98; 41; 46; 14; 116; 80;
   2; 90; 195; 37; 123; 138; 42; 91; 240; 6; 13; 71; 111; 112; 157; 126;
   16; 206; 18; 39; 213; 76; 79; 214; 121; 48; 104; 54; 117; 125; 228; 237;
   128; 106; 144; 55; 162; 94; 118; 170; 197; 127; 61; 175; 165; 229; 25; 97;
   253; 77; 124; 183; 11; 238; 173; 75; 34; 245; 231; 115; 35; 33; 200; 5;
   225; 102; 221; 179; 88; 105; 99; 86; 15; 161; 49; 149; 23; 7; 58; 40]%N.

(* src/kryptos_saferk64.c:76-111 *)
Definition saferk64_l_lt : list N :=
  [128; 0; 176; 9; 96; 239; 185; 253; 16; 18; 159; 228; 105; 186; 173; 248;
   192; 56; 194; 101; 79; 6; 148; 252; 25; 222; 106; 27; 93; 78; 168; 130;
   112; 237; 232; 236; 114; 179; 21; 195; 255; 171; 182; 71; 68; 1; 172; 37;
   201; 250; 142; 65; 26; 33; 203; 211; 13; 110; 254; 38; 88; 218; 50; 15;
   32; 169; 157; 132; 152; 5; 156; 187; 34; 140; 99; 231; 197; 225; 115; 198;
   175; 36; 91; 135; 102; 39; 247; 87; 244; 150; 177; 183; 92; 139; 213; 84;
   121; 223; 170; 246; 62; 163; 241; 17; 202; 245; 209; 23; 123; 147; 131; 188;
   189; 82; 30; 235; 174; 204; 214; 53; 8; 200; 138; 180; 226; 205; 191; 217;
   208; 80; 89; 63; 77; 98; 52; 10; 72; 136; 181; 86; 76; 46; 107; 158;
   210; 61; 60; 3; 19; 251; 151; 81; 117; 74; 145; 113; 35; 190; 118; 42;
   95; 249; 212; 85; 11; 220; 55; 49; 22; 116; 215; 119; 167; 230; 7; 219;
   164; 47; 70; 243; 97; 69; 103; 227; 12; 162; 59; 28; 133; 24; 4; 29;
   41; 160; 143; 178; 90; 216; 166; 126; 238; 141; 83; 75; 161; 154; 193; 14;
   122; 73; 165; 44; 129; 196; 199; 54; 43; 127; 67; 149; 51; 242; 108; 104;
   109; 240; 2; 40; 206; 221; 155; 234; 94; 153; 124; 20; 134; 207; 229; 66;
   184; 64; 120; 45; 58; 233; 100; 31; 146; 144; 125; 57; 111; 224; 137; 48]%N.


(* src/kryptos_saferk64.c:18 KRYPTOS_SAFERK64_MAX_ROUND *)
Definition saferk64_max_round : nat := 800.

(* src/kryptos_saferk64.c:205-216: the eight bytes of c[i]. The index modulo 257 may be 256, past the
   end of the 256-entry table: undefined. *)
Definition saferk64_c (i : nat) : outcome (list N) :=
  fold_right (fun j acc =>
      obind acc (fun r =>
        let x := (9 * (N.of_nat i + 2) + N.of_nat j) mod 257 in
        if x <? 256 then Done (nthN saferk64_e_lt (nthN saferk64_e_lt x) :: r) else UB))
    (Done []) (seq 1 8).

(* src/kryptos_saferk64.c:20, 223-262: one pass of the sub-key loop: rotate every byte of K1 left by
   3, add the constants *)
Definition saferk64_rot (K1 : list N) : list N := map (fun b => rotl 8 b 3) K1.
Definition saferk64_subkey (K1 c : list N) : list N := map (fun '(e, b) => add8 e b) (combine c K1).

(* src/kryptos_saferk64.c:223-262, from i on, i_nr passes *)
Fixpoint saferk64_keys (i : nat) (i_nr : nat) (K1 : list N) : outcome (list (list N)) :=
  match i_nr with
  | O => Done []
  | S n =>
      let K1 := saferk64_rot K1 in
      obind (saferk64_c (i - 1)) (fun c =>
      obind (saferk64_keys (i + 1) n K1) (fun ks => Done (saferk64_subkey K1 c :: ks)))
  end.

(* src/kryptos_saferk64.c:174-271 kryptos_saferk64_ld_user_key (8 calls), kryptos_saferk64_make_key.
   The sub-keys as lists of eight bytes; the structure holds 2 * 800 of them (line 114) and
   2 * rounds + 1 are written. *)
Definition saferk64_make_key (rounds : nat) (key : list N) : outcome (list (list N)) :=
  let K0 := store_be 4 (ld_user_key 4 2 8 key) in
  if Nat.leb (2 * saferk64_max_round) (2 * rounds) then UB
  else obind (saferk64_keys 1 (2 * rounds) K0) (fun ks => Done (K0 :: ks)).

(* apply one function to each of the eight bytes, in the order c0 .. c7 *)
Definition lanes (fs : list (N -> N -> N)) (c k : list N) : list N :=
  map (fun '(f, (x, y)) => f x y) (combine fs (combine c k)).
(* a table lookup, as a function of the byte and an ignored key *)
Definition lookup (t : list N) (x _ : N) : N := nthN t x.

(* src/kryptos_saferk64.c:283-290, 341-348 *)
Definition saferk64_T : list (N -> N -> N) := [xor; add8; add8; xor; xor; add8; add8; xor].
(* src/kryptos_saferk64.c:374-381, 437-444 *)
Definition saferk64_T_1 : list (N -> N -> N) := [xor; sub8; sub8; xor; xor; sub8; sub8; xor].
(* src/kryptos_saferk64.c:303-310 *)
Definition saferk64_T' : list (N -> N -> N) := [add8; xor; xor; add8; add8; xor; xor; add8].
(* src/kryptos_saferk64.c:417-424 *)
Definition saferk64_T'_1 : list (N -> N -> N) := [sub8; xor; xor; sub8; sub8; xor; xor; sub8].
(* src/kryptos_saferk64.c:293-300 *)
Definition saferk64_S : list (N -> N -> N) :=
  let e := lookup saferk64_e_lt in let l := lookup saferk64_l_lt in [e; l; l; e; e; l; l; e].
(* src/kryptos_saferk64.c:427-434 *)
Definition saferk64_S_1 : list (N -> N -> N) :=
  let e := lookup saferk64_e_lt in let l := lookup saferk64_l_lt in [l; e; e; l; l; e; e; l].

(* src/kryptos_saferk64.c:25-28 kryptos_saferk64_HT2 on the four pairs *)
Definition saferk64_HT2 (a1 a2 : N) : list N := [add8 (add8 a1 a1) a2; add8 a1 a2].
(* src/kryptos_saferk64.c:31-34 kryptos_saferk64_IHT2; the int result, possibly negative, is
   truncated to a byte *)
Definition saferk64_IHT2 (a1 a2 : N) : list N := [sub8 a1 a2; sub8 (add8 a2 a2) a1].
Definition pairs4 (f : N -> N -> list N) (l : list N) : list N :=
  match l with
  | [a; b; c; d; e; g; h; i] => f a b ++ f c d ++ f e g ++ f h i
  | _ => l
  end.
(* the order in which the layers 2 and 3 of src/kryptos_saferk64.c:318-326 take their arguments *)
Definition saferk64_shuffle (l : list N) : list N :=
  match l with
  | [b0; b1; b2; b3; b4; b5; b6; b7] => [b0; b2; b4; b6; b1; b3; b5; b7]
  | _ => l
  end.
(* the order of src/kryptos_saferk64.c:392-400 *)
Definition saferk64_unshuffle (l : list N) : list N :=
  match l with
  | [b0; b1; b2; b3; b4; b5; b6; b7] => [b0; b4; b1; b5; b2; b6; b3; b7]
  | _ => l
  end.

(* src/kryptos_saferk64.c:280-337, round r *)
Definition saferk64_enc_round (K : list (list N)) (c : list N) (r : nat) : list N :=
  let c := lanes saferk64_T c (nth (2 * r) K []) in
  let c := lanes saferk64_S c c in
  let c := lanes saferk64_T' c (nth (2 * r + 1) K []) in
  let b := pairs4 saferk64_HT2 c in
  let c := pairs4 saferk64_HT2 (saferk64_shuffle b) in
  pairs4 saferk64_HT2 (saferk64_shuffle c).
(* src/kryptos_saferk64.c:383-445; r counts from rounds - 1 down to 0 here, one less than in the code *)
Definition saferk64_dec_round (K : list (list N)) (c : list N) (r : nat) : list N :=
  let b := pairs4 saferk64_IHT2 c in
  let c := pairs4 saferk64_IHT2 (saferk64_unshuffle b) in
  let c := pairs4 saferk64_IHT2 (saferk64_unshuffle c) in
  let c := lanes saferk64_T'_1 c (nth (2 * r + 1) K []) in
  let c := lanes saferk64_S_1 c c in
  lanes saferk64_T_1 c (nth (2 * r) K []).

(* src/kryptos_saferk64.c:273-362 kryptos_saferk64_block_encrypt *)
Definition saferk64_encrypt (rounds : nat) (K : list (list N)) (c : list N) : list N :=
  lanes saferk64_T (fold_left (saferk64_enc_round K) (seq 0 rounds) c) (nth (2 * rounds) K []).
(* src/kryptos_saferk64.c:364-453 kryptos_saferk64_block_decrypt *)
Definition saferk64_decrypt (rounds : nat) (K : list (list N)) (c : list N) : list N :=
  fold_left (saferk64_dec_round K) (rev (seq 0 rounds)) (lanes saferk64_T_1 c (nth (2 * rounds) K [])).

(* src/kryptos_saferk64.c:128-172; rounds = the int arg[0] points to, None when NULL; the int becomes a size_t *)
Definition saferk64 (rounds : option Z) : blockcipher :=
  let sub key := match rounds with
                 | Some r => match saferk64_make_key (Z.to_nat r) key with Done K => K | UB => [] end
                 | None => []
                 end in
  let nr := match rounds with Some r => Z.to_nat r | None => 0%nat end in
  {| bc_id := SAFERK64; bc_bs := 8;
     bc_check := fun key =>
       match rounds with
       | None => Done InvalidParams
       | Some r =>
           let u := Z.to_N (r mod 2 ^ 64) in
           if u <? 1 then Done InvalidParams
           else if N.of_nat saferk64_max_round <? u then Done InvalidParams
           else obind (saferk64_make_key (Z.to_nat r) key) (fun _ => Done Success)
       end;
     bc_enc := fun key => saferk64_encrypt nr (sub key);
     bc_dec := fun key => saferk64_decrypt nr (sub key);
     bc_gcm := GcmNoSupport |}.
