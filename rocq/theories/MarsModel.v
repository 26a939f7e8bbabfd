From Verif Require Import Words TaskModel ModeModel CipherBase.
Open Scope N_scope.

(* Model of src/kryptos_mars.c. Words are 32 bits, read from and written to the block least
   significant byte first (kryptos_mars_rev_u32 of the big endian reads, lines 133-135, 390-393). *)

(* src/kryptos_mars.c:20-85 *)
Definition mars_S : list N :=
  [164676729; 684261344; 2225761337; 2645389959; 2113903587; 3559293793; 3379405268; 2037697683;
   2245023790; 709580549; 480340578; 3283953565; 253699557; 1365260079; 3331703291; 1300230628;
   2925489140; 225635910; 4280540810; 2983169667; 4048093922; 1050156610; 2348105398; 2135685292;
   2204311427; 630653445; 1991239556; 981021140; 1334076496; 1550107638; 554327832; 3331877414;
   687138854; 979413020; 3544229476; 2124947652; 1382451141; 2128466219; 849419549; 2627661958;
   2163664945; 2876179629; 1459329875; 2335050076; 3062191790; 3525643021; 692746017; 3793728083;
   2920507209; 3895111302; 2469810436; 2571127398; 2024244444; 3063654475; 67397523; 601578526;
   1187701206; 803373364; 1512192322; 409193819; 3247490787; 132102214; 1857587222; 755878986;
   2764877401; 932734733; 3422196883; 1330126149; 3942419624; 3675335126; 2957286944; 257165307;
   1634195880; 3522451299; 1303025347; 1005345112; 2880151572; 3066876417; 953558943; 40378901;
   2402774229; 153887614; 3217384851; 847813932; 2236300949; 96181059; 2110610893; 2687406700;
   4209321957; 916570928; 873652654; 4065850466; 1011817841; 815982601; 1759901009; 2623650372;
   1575815864; 1976437192; 2522151230; 1770785994; 607957988; 721824663; 255561118; 14700767;
   4233978214; 3814691464; 3229177101; 93433576; 2387811956; 1979594104; 795706010; 4127924654;
   2515069837; 1721321579; 2417851803; 4251807281; 277916911; 3764850136; 3669157522; 3446489957;
   3845731604; 989021680; 1648491597; 1175298979; 2077177641; 2347880928; 346734704; 361229653;
   989691198; 3539115521; 698995190; 4021357651; 3476784911; 3021247324; 1715758573; 38456007;
   1504134337; 489240231; 3696757414; 3478604968; 67795472; 1826101255; 2325265996; 2899222627;
   3275657909; 3521175613; 3005370750; 546487571; 946547786; 1390992728; 1483042299; 1350697841;
   1098979478; 3812093822; 3550458137; 3380547062; 1761517595; 2706417381; 1428523362; 3949982747;
   3620326778; 2786708894; 3169883510; 645054579; 4026792764; 1253549323; 344199786; 1216063921;
   2790246854; 4136992073; 951085685; 3716177869; 1674613967; 4112292254; 447009603; 3091813012;
   3466563225; 3221018480; 3351410124; 931419047; 2065808947; 964641213; 1318375729; 2462850968;
   1494608465; 2583191991; 3382184584; 494206303; 2963576312; 1632497360; 3044511466; 1497463085;
   4203790840; 871900340; 3298186098; 1073141072; 1285947072; 2251352420; 1530903510; 2107796040;
   2986550042; 69825812; 761500422; 783364425; 379867762; 1394891168; 2388609138; 4184262617;
   118656448; 222616418; 2949174573; 103899441; 3627608014; 465837312; 976129039; 3934487422;
   3112465277; 330975377; 3304634697; 2799086771; 2719337934; 2203681675; 1808902705; 4118404434;
   565788563; 4111951745; 410910174; 3914001270; 725155156; 1126031834; 2872657957; 2597520527;
   3756667562; 1704227811; 1648326755; 4080299097; 2872751749; 860268811; 1800815678; 3336438264;
   2369920960; 2601439500; 2297537001; 1421996073; 2112542075; 2373690406; 1291130762; 1427799242;
   446324488; 4241904057; 627069314; 3776956099; 3070072438; 863711271; 3083397908; 2657079344;
   1800921940; 2911976695; 2115397773; 1485253225; 741328863; 3817458886; 812879345; 136619828;
   3782834827; 2762528123; 1532827963; 3366465691; 1945741688; 1933151538; 257513278; 3923716867;
   3903174344; 2223834884; 2564789186; 1913265603; 1750017434; 2486937672; 2788622674; 2252037795;
   3514537867; 1838897391; 175115732; 2805806783; 2389313577; 2257959956; 3814405191; 2470102376;
   2291445794; 793844775; 3724266556; 6709942; 293372926; 1309848596; 3267143526; 976219152;
   4099286048; 1434005034; 1190516823; 3470403022; 3277856059; 1811983174; 4021066792; 3015921735;
   1629355747; 628896263; 4258628738; 991221839; 599706468; 2692084643; 143625901; 128840024;
   2006357052; 4207591229; 3231133901; 4150761833; 3661949421; 746933266; 898850723; 788888991;
   1762010360; 481344253; 2064498118; 2165253051; 4203911706; 1838586391; 1732417435; 1957461253;
   17720772; 2258884963; 4178032032; 3489934291; 361594115; 679117397; 3148363375; 158260275;
   563178107; 2008378246; 2501255929; 2797987408; 2364151761; 3448529596; 2748724275; 898263293;
   261856572; 3601475931; 4264769610; 3221255054; 3446139695; 3807079874; 2536737538; 113898054;
   1100804525; 730054725; 925102474; 3411751049; 369879767; 1565083222; 905488203; 508456094;
   235965; 1732667520; 3021424689; 2901681074; 3397474995; 1516475879; 808085445; 2346402923;
   277843876; 270679770; 2461578379; 2134429934; 2871460308; 40031253; 2938260016; 3017312954;
   4172465071; 3673681776; 3432502199; 3915467628; 732872692; 1895204815; 946639190; 3456708325;
   32013734; 1827217002; 3145452676; 3348245536; 2637918717; 101597638; 3612938005; 1308867399;
   406591886; 1676587584; 769389722; 1834793556; 2453098671; 4192289334; 2016941611; 1500671090;
   2176214880; 3140036289; 1218498061; 2797619565; 2906869883; 1905084778; 2649773999; 1152499174;
   88299228; 3732729141; 3575255947; 1644727497; 897778449; 3379494050; 1752139500; 2390215528;
   1675744952; 3356465016; 2042925565; 457992178; 1919520125; 1580633137; 4158217774; 2714978623;
   3705226046; 2305758546; 1271188090; 2798762740; 2779344332; 200248134; 2708077991; 1960788151;
   1310754820; 2591385095; 59672520; 539041348; 2340082879; 3326099253; 407429997; 2159915064;
   509774108; 1681727751; 3204765432; 554249356; 4131713929; 125321294; 2071506360; 2730831187;
   1108703934; 2720349742; 2079585454; 2163578105; 2503054567; 2011927277; 3011602736; 3666711350;
   3208934505; 4067267715; 4000296661; 1899434549; 3728891763; 3034947395; 2109615438; 758624645;
   1239194211; 2562956696; 318884258; 949689279; 202922125; 2753675706; 2057537116; 1910539608;
   1012726954; 2099485860; 43506141; 3621529648; 1261928491; 1948822356; 2934833991; 1262467973;
   1764699912; 323901326; 920248511; 2928369615; 3988340431; 723985550; 386839023; 2110095318;
   511053590; 2970838529; 2253265819; 3622466329; 985166269; 3483686767; 3810252674; 230601833;
   2881052769; 1399912541; 4289756727; 3660632315; 3955849142; 194556943; 978128870; 3746546283;
   362607146; 3264796386; 729345898; 1638484672; 2874544519; 351183088; 3742187876; 430928110]%N.

(* src/kryptos_mars.c:87-91 *)
Definition mars_S0 (b : N) : N := nthN mars_S b.
Definition mars_S1 (b : N) : N := nthN mars_S (256 + b).
Definition mars_B (b : N) : N := nthN mars_S (265 + b).

(* src/kryptos_mars.c:118 kryptos_mars_get_byte_n *)
Definition mars_byte (d n : N) : N := and (shr d (8 * n)) 0xff.

(* src/kryptos_mars.c:95-105 kryptos_mars_E: (L, M, R). A rotation by R & 0x1F = 0 shifts right by 32 in
   C; it is modelled as the identity rotation. *)
Definition mars_E (x k1 k2 : N) : N * N * N :=
  let M := add32 x k1 in
  let R := mul32 (rotl32 x 13) k2 in
  let L := nthN mars_S (and M 0x1ff) in
  let R := rotl32 R 5 in
  let L := xor L R in
  let M := rotl32 M (and R 0x1f) in
  let R := rotl32 R 5 in
  let L := xor L R in
  let L := rotl32 L (and R 0x1f) in
  (L, M, R).

Definition mars_state : Type := (N * N * N * N)%type.

(* src/kryptos_mars.c:107-116 kryptos_mars_rotwr and 120-129 kryptos_mars_rotwl *)
Definition mars_rotwr (s : mars_state) : mars_state := let '(a, b, c, d) := s in (b, c, d, a).
Definition mars_rotwl (s : mars_state) : mars_state := let '(a, b, c, d) := s in (d, a, b, c).

(* D[0] op= D[3] in rounds r and r + 4, D[0] op= D[1] in rounds r + 1 and r + 5 *)
Definition mars_extra (op : N -> N -> N) (r : nat) (i : nat) (s : mars_state) : mars_state :=
  let '(d0, d1, d2, d3) := s in
  if (Nat.eqb i r || Nat.eqb i (r + 4))%bool then (op d0 d3, d1, d2, d3)
  else if (Nat.eqb i (r + 1) || Nat.eqb i (r + 5))%bool then (op d0 d1, d1, d2, d3)
  else s.

(* src/kryptos_mars.c:395-407 kryptos_mars_forward_mixing_round *)
Definition mars_fmix (s : mars_state) (i : nat) : mars_state :=
  let '(d0, d1, d2, d3) := s in
  let d1 := xor d1 (mars_S0 (mars_byte d0 0)) in
  let d1 := add32 d1 (mars_S1 (mars_byte d0 1)) in
  let d2 := add32 d2 (mars_S0 (mars_byte d0 2)) in
  let d3 := xor d3 (mars_S1 (mars_byte d0 3)) in
  let d0 := rotr32 d0 24 in
  mars_rotwr (mars_extra add32 0 i (d0, d1, d2, d3)).

(* src/kryptos_mars.c:409-421 kryptos_mars_keyed_transformation_round *)
Definition mars_keyed (K : list N) (s : mars_state) (i : nat) : mars_state :=
  let '(d0, d1, d2, d3) := s in
  let '(L, M, R) := mars_E d0 (nth (2 * i + 4) K 0) (nth (2 * i + 5) K 0) in
  let d0 := rotl32 d0 13 in
  let d2 := add32 d2 M in
  mars_rotwr (if Nat.ltb i 8 then (d0, add32 d1 L, d2, xor d3 R) else (d0, xor d1 R, d2, add32 d3 L)).

(* src/kryptos_mars.c:423-435 kryptos_mars_backwards_mixing_round *)
Definition mars_bmix (s : mars_state) (i : nat) : mars_state :=
  let '(d0, d1, d2, d3) := mars_extra sub32 2 i s in
  let d1 := xor d1 (mars_S1 (mars_byte d0 0)) in
  let d2 := sub32 d2 (mars_S0 (mars_byte d0 3)) in
  let d3 := sub32 d3 (mars_S1 (mars_byte d0 2)) in
  let d3 := xor d3 (mars_S0 (mars_byte d0 1)) in
  let d0 := rotl32 d0 24 in
  mars_rotwr (d0, d1, d2, d3).

(* D[i] += K[o + i] and D[i] -= K[o + i] *)
Definition mars_whiten (op : N -> N -> N) (K : list N) (o : nat) (s : mars_state) : mars_state :=
  let '(d0, d1, d2, d3) := s in
  (op d0 (nth o K 0), op d1 (nth (o + 1) K 0), op d2 (nth (o + 2) K 0), op d3 (nth (o + 3) K 0)).

(* src/kryptos_mars.c:384-514 kryptos_mars_block_encrypt *)
Definition mars_enc (K : list N) (s : mars_state) : mars_state :=
  let s := mars_whiten add32 K 0 s in
  let s := fold_left mars_fmix (seq 0 8) s in
  let s := fold_left (mars_keyed K) (seq 0 16) s in
  let s := fold_left mars_bmix (seq 0 8) s in
  mars_whiten sub32 K 36 s.
Definition mars_block_encrypt (K : list N) : list N -> list N := blk_le 4 4 (on4 (mars_enc K)).

(* src/kryptos_mars.c:527-539 kryptos_mars_forward_mixing_round_1 *)
Definition mars_fmix_1 (s : mars_state) (i : nat) : mars_state :=
  let '(d0, d1, d2, d3) := mars_rotwl s in
  let d0 := rotr32 d0 24 in
  let d3 := xor d3 (mars_S0 (mars_byte d0 1)) in
  let d3 := add32 d3 (mars_S1 (mars_byte d0 2)) in
  let d2 := add32 d2 (mars_S0 (mars_byte d0 3)) in
  let d1 := xor d1 (mars_S1 (mars_byte d0 0)) in
  mars_extra add32 2 i (d0, d1, d2, d3).

(* src/kryptos_mars.c:541-553 kryptos_mars_keyed_transformation_round_1 *)
Definition mars_keyed_1 (K : list N) (s : mars_state) (i : nat) : mars_state :=
  let '(d0, d1, d2, d3) := mars_rotwl s in
  let d0 := rotr32 d0 13 in
  let '(L, M, R) := mars_E d0 (nth (2 * i + 4) K 0) (nth (2 * i + 5) K 0) in
  let d2 := sub32 d2 M in
  if Nat.ltb i 8 then (d0, sub32 d1 L, d2, xor d3 R) else (d0, xor d1 R, d2, sub32 d3 L).

(* src/kryptos_mars.c:555-567 kryptos_mars_backwards_mixing_round_1 *)
Definition mars_bmix_1 (s : mars_state) (i : nat) : mars_state :=
  let '(d0, d1, d2, d3) := mars_extra sub32 0 i (mars_rotwl s) in
  let d0 := rotl32 d0 24 in
  let d3 := xor d3 (mars_S1 (mars_byte d0 3)) in
  let d2 := sub32 d2 (mars_S0 (mars_byte d0 2)) in
  let d1 := sub32 d1 (mars_S1 (mars_byte d0 1)) in
  let d1 := xor d1 (mars_S0 (mars_byte d0 0)) in
  (d0, d1, d2, d3).

(* src/kryptos_mars.c:516-646 kryptos_mars_block_decrypt; the rounds go from 7 (15) down to 0 *)
Definition mars_dec (K : list N) (s : mars_state) : mars_state :=
  let s := mars_whiten add32 K 36 s in
  let s := fold_left mars_fmix_1 (rev (seq 0 8)) s in
  let s := fold_left (mars_keyed_1 K) (rev (seq 0 16)) s in
  let s := fold_left mars_bmix_1 (rev (seq 0 8)) s in
  mars_whiten sub32 K 0 s.
Definition mars_block_decrypt (K : list N) : list N -> list N := blk_le 4 4 (on4 (mars_dec K)).

(* src/kryptos_mars.c:258-262: wkey[32] = 0; memcpy(wkey, key, key_size) with no check of key_size *)
Definition mars_wkey (key : list N) : outcome (list N) :=
  if Nat.leb (length key) 32 then Done (key ++ repeat 0 (32 - length key)) else UB.

(* src/kryptos_mars.c:287-289 kryptos_mars_key_sched_linear; (i - 7) mod 15 and (i - 2) mod 15 are written
   (i + 8) mod 15 and (i + 13) mod 15 *)
Definition mars_linear (j : nat) (T : list N) (i : nat) : list N :=
  let t n := nth (Nat.modulo n 15) T 0 in
  upd T i (xor (nth i T 0) (xor (rotl32 (xor (t (i + 8)%nat) (t (i + 13)%nat)) 3) (N.of_nat (4 * i + j)))).
(* src/kryptos_mars.c:291-293 kryptos_mars_key_sched_stirring_round_chunk *)
Definition mars_stir (T : list N) (i : nat) : list N :=
  upd T i (rotl32 (add32 (nth i T 0) (nthN mars_S (and 0x1ff (nth (Nat.modulo (i + 14) 15) T 0)))) 9).
(* src/kryptos_mars.c:331-364: T, then the ten words of this pass *)
Definition mars_pass (s : list N * list N) (j : nat) : list N * list N :=
  let '(T, K) := s in
  let T := fold_left (mars_linear j) (seq 0 15) T in
  let T := fold_left mars_stir (seq 0 15 ++ seq 0 15 ++ seq 0 15 ++ seq 0 15) T in
  (T, K ++ perm [0; 4; 8; 12; 1; 5; 9; 13; 2; 6]%nat T).
(* src/kryptos_mars.c:313-325 kryptos_mars_setmask *)
Definition mars_setmask (K : list N) (i : nat) : list N :=
  let k := nth i K 0 in
  let w := or k 3 in
  let m := and (and (xor (notw 32 w) (shl32 w 1)) (xor (notw 32 w) (shr w 1))) 0x7ffffffe in
  let m := and m (shr m 1) in
  let m := and m (shr m 2) in
  let m := and m (shr m 4) in
  let m := or m (shl32 m 1) in
  let m := or m (shl32 m 2) in
  let m := or m (shl32 m 4) in
  let m := and m 0x7ffffffc in
  upd K i (xor w (and (rotl32 (mars_B (and k 3)) (and (nth (i - 1) K 0) 0x1f)) m)).
(* src/kryptos_mars.c:249-382 kryptos_mars_key_sched, n = effective_key_size / 4 words (211-247 loads them
   big endian and 267-271 reverses their bytes) *)
Definition mars_expand (n : nat) (wkey : list N) : list N :=
  let T := load_le 4 n wkey ++ N.of_nat n :: repeat 0 (14 - n) in
  let K := snd (fold_left mars_pass (seq 0 4) (T, [])) in
  fold_left mars_setmask (map (fun i => 5 + 2 * i)%nat (seq 0 16)) K.
Definition mars_key_sched (n : nat) (key : list N) : outcome (list N) :=
  obind (mars_wkey key) (fun w => Done (mars_expand n w)).

(* src/kryptos_mars.c:153-207 *)
Definition mars (id : cipher_id) (n : nat) : blockcipher :=
  let sub key := match mars_key_sched n key with Done K => K | UB => repeat 0 40 end in
  {| bc_id := id; bc_bs := 16;
     bc_check := fun key => obind (mars_key_sched n key) (fun _ => Done Success);
     bc_enc := fun key => mars_block_encrypt (sub key);
     bc_dec := fun key => mars_block_decrypt (sub key);
     bc_gcm := GcmStandard |}.
(* src/kryptos_mars.c:153-169 *)
Definition mars128 : blockcipher := mars MARS128 4.
(* src/kryptos_mars.c:171-188 *)
Definition mars192 : blockcipher := mars MARS192 6.
(* src/kryptos_mars.c:190-207 *)
Definition mars256 : blockcipher := mars MARS256 8.
