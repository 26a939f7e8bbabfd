From Verif Require Import Words EncSpec TaskModel ModeModel ModeSpec CipherBase CipherLib ShacalModel.
Open Scope N_scope.

Ltac Forall_inv := repeat match goal with H : Forall _ (_ :: _) |- _ => inversion H; clear H; subst end.

Lemma shacal1_F_lt : forall t B C D, B < 2 ^ 32 -> C < 2 ^ 32 -> D < 2 ^ 32 -> shacal1_F t B C D < 2 ^ 32.
Proof. intros. unfold shacal1_F. repeat match goal with |- context [if ?c then _ else _] => destruct c end; wlt. Qed.

Lemma shacal1_round_inv : forall W t,
  word_inverse 32 5 (fun s => shacal1_enc_round W s t) (fun s => shacal1_dec_round W s t).
Proof.
  intros W t ws Hl Hw. unfold words in *.
  destruct ws as [|A [|B [|C [|D [|E [|? ?]]]]]]; try discriminate Hl. Forall_inv.
  unfold shacal1_enc_round, shacal1_dec_round. cbv zeta.
  split; [|split; (split; [reflexivity|]); repeat apply Forall_cons; try apply Forall_nil; wlt].
  assert (rotl32 (rotl32 B 30) 2 = B) as -> by (apply (rotl_rotl_compl 32 B 30); [assumption|lia]).
  repeat f_equal. set (f := shacal1_F t B C D). set (k := shacal1_K t). set (w := nth t W 0). set (a := rotl32 A 5).
  replace (add32 (add32 (add32 (add32 a f) E) w) k) with (add32 (add32 (add32 (add32 E k) w) f) a) by addw_ac.
  rewrite !subw_addw by wlt. reflexivity.
Qed.

Lemma shacal1_lawful : lawful shacal1.
Proof.
  unfold lawful. cbn [shacal1 bc_id bc_bs bc_enc bc_dec].
  split; [reflexivity|]. split; [reflexivity|]. split; [lia|]. intros key _.
  apply (inverse_blk_be 4 5). change (8 * N.of_nat 4) with 32.
  apply word_inverse_fold. intros t _. apply shacal1_round_inv.
Qed.

Lemma shacal2_round_inv : forall W t,
  word_inverse 32 8 (fun s => shacal2_enc_round W s t) (fun s => shacal2_dec_round W s t).
Proof.
  intros W t ws Hl Hw. unfold words in *.
  destruct ws as [|a [|b [|c [|d [|e [|f [|g [|h [|? ?]]]]]]]]]; try discriminate Hl. Forall_inv.
  unfold shacal2_enc_round, shacal2_dec_round. cbv zeta.
  split; [|split; (split; [reflexivity|]); repeat apply Forall_cons; try apply Forall_nil; wlt].
  set (T2 := add32 (shacal2_BSIG0 a) (shacal2_MAJ a b c)). set (u := shacal2_BSIG1 e). set (v := shacal2_CH e f g).
  set (k := nth t shacal2_K 0). set (w := nth t W 0). rewrite !subw_addw by wlt.
  replace (add32 (add32 (add32 (add32 h u) v) k) w) with (add32 h (add32 (add32 (add32 u v) k) w)) by addw_ac.
  rewrite !subw_addw by wlt. reflexivity.
Qed.

Lemma shacal2_lawful : lawful shacal2.
Proof.
  unfold lawful. cbn [shacal2 bc_id bc_bs bc_enc bc_dec].
  split; [reflexivity|]. split; [reflexivity|]. split; [lia|]. intros key _.
  apply (inverse_blk_be 4 8). change (8 * N.of_nat 4) with 32.
  apply word_inverse_fold. intros t _. apply shacal2_round_inv.
Qed.
