(** Bit-level facts behind the crit-bit tree. *)
From Verif Require Import Base BaseProofs Critbit.

(** Bit [p] counted from the most significant bit of a 128-bit key. *)
Definition kbit (p k : Z) : bool := Z.testbit k (127 - p).
(** The first [p] bits agree. *)
Definition agree (p a b : Z) : Prop := Z.shiftr a (128 - p) = Z.shiftr b (128 - p).

Lemma agree_refl p a : agree p a a. Proof. reflexivity. Qed.
Lemma agree_sym p a b : agree p a b -> agree p b a. Proof. unfold agree. congruence. Qed.
Lemma agree_trans p a b c : agree p a b -> agree p b c -> agree p a c.
Proof. unfold agree. congruence. Qed.

Lemma agree_0 a b : u128 a -> u128 b -> agree 0 a b.
Proof.
  unfold agree, u128. intros. rewrite !Z.shiftr_div_pow2 by lia.
  change (2 ^ (128 - 0)) with B128. rewrite !Z.div_small by lia. reflexivity.
Qed.

Lemma agree_le p q a b : agree p a b -> 0 <= q <= p -> p <= 128 -> agree q a b.
Proof.
  unfold agree. intros H Hq Hp.
  replace (128 - q) with ((128 - p) + (p - q)) by lia.
  rewrite <- !Z.shiftr_shiftr by lia. congruence.
Qed.

Lemma agree_kbit p q a b : agree p a b -> 0 <= q < p -> p <= 128 -> kbit q a = kbit q b.
Proof.
  unfold agree, kbit. intros H Hq Hp.
  replace (127 - q) with ((p - q - 1) + (128 - p)) by lia.
  rewrite <- !(Z.shiftr_spec _ (128 - p) (p - q - 1)) by lia. congruence.
Qed.

Lemma shiftr_step a n : 0 <= n -> Z.shiftr a n = 2 * Z.shiftr a (n + 1) + Z.b2z (Z.testbit a n).
Proof.
  intros. rewrite <- Z.shiftr_shiftr by lia.
  replace (Z.testbit a n) with (Z.testbit (Z.shiftr a n) 0).
  2:{ rewrite Z.shiftr_spec by lia. f_equal; lia. }
  set (x := Z.shiftr a n). rewrite Z.shiftr_div_pow2 by lia.
  rewrite Z.bit0_mod. change (2 ^ 1) with 2.
  pose proof (Z.div_mod x 2). lia.
Qed.

Lemma agree_S p a b : 0 <= p < 128 -> agree p a b -> kbit p a = kbit p b -> agree (p + 1) a b.
Proof.
  unfold agree, kbit. intros Hp H Hb.
  replace (128 - (p + 1)) with (127 - p) by lia.
  rewrite (shiftr_step a), (shiftr_step b) by lia.
  replace (127 - p + 1) with (128 - p) by lia. rewrite H, Hb. reflexivity.
Qed.

Lemma agree_lt p a b : 0 <= p < 128 -> agree p a b ->
  kbit p a = false -> kbit p b = true -> a < b.
Proof.
  unfold agree, kbit. intros Hp H Ha Hb.
  assert (Z.shiftr a (127 - p) < Z.shiftr b (127 - p)).
  { rewrite (shiftr_step a), (shiftr_step b) by lia.
    replace (127 - p + 1) with (128 - p) by lia. rewrite H, Ha, Hb. cbn [Z.b2z]. lia. }
  rewrite !Z.shiftr_div_pow2 in H0 by lia.
  destruct (Z_lt_le_dec a b); [assumption|].
  pose proof (Z.div_le_mono b a (2 ^ (127 - p)) ltac:(apply Z.pow_pos_nonneg; lia) l). lia.
Qed.

Lemma lxor_u128 a b : u128 a -> u128 b -> u128 (Z.lxor a b).
Proof.
  unfold u128. intros. split.
  - apply Z.lxor_nonneg. lia.
  - destruct (Z.eq_dec (Z.lxor a b) 0); [lia|].
    assert (0 <= Z.lxor a b) by (apply Z.lxor_nonneg; lia).
    change B128 with (2 ^ 128). apply Z.log2_lt_pow2; [lia|].
    pose proof (Z.log2_lxor a b ltac:(lia) ltac:(lia)).
    assert (forall x, 0 <= x < B128 -> Z.log2 x < 128).
    { intros. destruct (Z.eq_dec x 0); [subst; reflexivity|].
      apply Z.log2_lt_pow2; [lia|]. change (2 ^ 128) with B128. lia. }
    pose proof (H3 a H). pose proof (H3 b H0). lia.
Qed.

Definition lzx (a b : Z) : Z := leading_zeros (Z.lxor a b).

Lemma lzx_range a b : u128 a -> u128 b -> 0 <= lzx a b <= 128.
Proof.
  intros Ha Hb. pose proof (lxor_u128 a b Ha Hb) as [H1 H2]. unfold lzx, leading_zeros.
  destruct (Z.lxor a b =? 0) eqn:E; [lia|].
  pose proof (Z.log2_nonneg (Z.lxor a b)).
  assert (Z.log2 (Z.lxor a b) < 128).
  { apply Z.log2_lt_pow2; [lia|]. change (2 ^ 128) with B128. lia. }
  lia.
Qed.

Lemma lzx_eq a b : lzx a b = 128 <-> a = b.
Proof.
  unfold lzx, leading_zeros. destruct (Z.lxor a b =? 0) eqn:E.
  - apply Z.eqb_eq, Z.lxor_eq in E. tauto.
  - split.
    + pose proof (Z.log2_nonneg (Z.lxor a b)). lia.
    + intros ->. rewrite Z.lxor_nilpotent in E. discriminate.
Qed.

Lemma lzx_agree a b : u128 a -> u128 b -> agree (lzx a b) a b.
Proof.
  intros Ha Hb. pose proof (lxor_u128 a b Ha Hb) as [H1 H2].
  pose proof (lzx_range a b Ha Hb).
  unfold agree. apply Z.lxor_eq. rewrite <- Z.shiftr_lxor.
  unfold lzx, leading_zeros in *. destruct (Z.lxor a b =? 0) eqn:E.
  - apply Z.eqb_eq in E. rewrite E. apply Z.shiftr_0_l.
  - apply Z.shiftr_eq_0; [lia|]. lia.
Qed.

Lemma lzx_bit a b : u128 a -> u128 b -> lzx a b < 128 -> kbit (lzx a b) a <> kbit (lzx a b) b.
Proof.
  intros Ha Hb. pose proof (lxor_u128 a b Ha Hb) as [H1 H2].
  unfold lzx, leading_zeros, kbit. destruct (Z.lxor a b =? 0) eqn:E; [lia|].
  intros _. replace (127 - (127 - Z.log2 (Z.lxor a b))) with (Z.log2 (Z.lxor a b)) by lia.
  pose proof (Z.bit_log2 (Z.lxor a b) ltac:(lia)) as Hl.
  rewrite Z.lxor_spec in Hl. intros Heq. rewrite Heq, xorb_nilpotent in Hl. discriminate.
Qed.

Lemma agree_lzx q a b : u128 a -> u128 b -> 0 <= q <= 128 -> agree q a b -> q <= lzx a b.
Proof.
  intros Ha Hb Hq H. pose proof (lzx_range a b Ha Hb).
  destruct (Z_lt_le_dec (lzx a b) q); [|assumption]. exfalso.
  apply (lzx_bit a b Ha Hb); [lia|]. eapply agree_kbit; eauto; lia.
Qed.

Lemma lzx_comm a b : lzx a b = lzx b a.
Proof. unfold lzx. rewrite Z.lxor_comm. reflexivity. Qed.

Lemma land_pow2 k n : 0 <= n -> (Z.land k (2 ^ n) =? 0) = negb (Z.testbit k n).
Proof.
  intros. apply Bool.eq_iff_eq_true. rewrite negb_true_iff, Z.eqb_eq. split; intros E.
  - pose proof (f_equal (fun z => Z.testbit z n) E) as F. cbn beta in F.
    rewrite Z.land_spec, Z.pow2_bits_true, Z.bits_0, andb_true_r in F by lia. assumption.
  - apply Z.bits_inj'. intros m Hm. rewrite Z.land_spec, Z.bits_0, Z.pow2_bits_eqb by lia.
    destruct (n =? m) eqn:F; [|apply andb_false_r].
    apply Z.eqb_eq in F. subst. rewrite E. reflexivity.
Qed.

Lemma crit_mask_pow p : 0 <= p <= 127 -> crit_mask p = 2 ^ (127 - p).
Proof.
  intros. unfold crit_mask. change 170141183460469231731687303715884105728 with (2 ^ 127).
  rewrite Z.shiftr_div_pow2 by lia. rewrite <- Z.pow_sub_r by lia. reflexivity.
Qed.

Lemma crit_bit_kbit p k : 0 <= p < 128 -> crit_bit p k = kbit p k.
Proof.
  intros. unfold crit_bit, kbit. rewrite crit_mask_pow by lia.
  rewrite land_pow2 by lia. apply negb_involutive.
Qed.

Lemma crit_bit_kbit' p k : 0 <= p < 128 -> negb (Z.land (crit_mask p) k =? 0) = kbit p k.
Proof. intros. rewrite Z.land_comm. apply (crit_bit_kbit p k H). Qed.
