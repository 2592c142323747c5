(** Lemmas about fee arithmetic. *)
From Verif Require Import Base Fees.
Ltac Zify.zify_post_hook ::= Z.div_mod_to_equations.

(** The nominal rate in tenths of a basis point (1/100000). *)
Definition nominal (t : tier) : Z :=
  match t with TBase => 40 | SRM2 => 39 | SRM3 => 38 | SRM4 => 36 | SRM5 => 34
             | SRM6 => 32 | MSRM => 30 | Stable => 10 end.

Lemma taker_rate_eq t : taker_rate t = nominal t * B64 / 100000.
Proof. destruct t; vm_compute; reflexivity. Qed.

Lemma taker_rate_bounds t :
  184467440737095 <= taker_rate t <= 7378697629483820.
Proof. destruct t; vm_compute; split; discriminate. Qed.

Lemma taker_rate_nominal t :
  100000 * taker_rate t <= nominal t * B64 < 100000 * (taker_rate t + 1).
Proof. destruct t; vm_compute; split; congruence. Qed.

Definition ceil_div (a b : Z) : Z := (a + b - 1) / b.

Lemma ceil_div_spec a b : 0 < b -> ceil_div a b * b >= a /\ (ceil_div a b - 1) * b < a.
Proof. unfold ceil_div. intros. nia. Qed.

Lemma taker_fee_closed t x : u64 x -> taker_fee t x = ceil_div (x * taker_rate t) B64.
Proof.
  unfold u64, taker_fee, fx_mul_u64, fx_floor, fx_frac, wadd, w64, w128, ceil_div.
  intros Hx. pose proof (taker_rate_bounds t) as Hr.
  set (r := taker_rate t) in *. clearbody r.
  assert (0 <= r * x <= 7378697629483820 * (B64 - 1)) by nia.
  rewrite (Z.mul_comm x r). set (p := r * x) in *. clearbody p.
  rewrite (Z.mod_small p B128) by lia.
  destruct (p mod B64 =? 0) eqn:E; lia.
Qed.

Lemma taker_fee_spec t x : u64 x ->
  let y := taker_fee t x in
  x * taker_rate t <= y * B64 /\ (y - 1) * B64 < x * taker_rate t.
Proof.
  intros Hx y. subst y. rewrite taker_fee_closed by assumption.
  pose proof (ceil_div_spec (x * taker_rate t) B64). lia.
Qed.

Lemma taker_fee_le t x : u64 x -> 0 <= taker_fee t x <= x.
Proof.
  intros Hx. pose proof (taker_fee_spec t x Hx) as [H1 H2].
  pose proof (taker_rate_bounds t). unfold u64 in *.
  generalize dependent (taker_fee t x). intros y H1 H2.
  generalize dependent (taker_rate t). intros. nia.
Qed.

Lemma taker_fee_pos t x : u64 x -> 0 < x -> 0 < taker_fee t x.
Proof.
  intros Hx Hp. pose proof (taker_fee_spec t x Hx) as [H1 H2].
  pose proof (taker_rate_bounds t). unfold u64 in *.
  generalize dependent (taker_fee t x). generalize dependent (taker_rate t). intros. nia.
Qed.

Lemma taker_fee_0 t : taker_fee t 0 = 0.
Proof. destruct t; vm_compute; reflexivity. Qed.

Lemma taker_fee_mono t x y : u64 x -> u64 y -> x <= y -> taker_fee t x <= taker_fee t y.
Proof.
  intros. pose proof (taker_fee_spec t x H) as [A1 A2].
  pose proof (taker_fee_spec t y H0) as [C1 C2]. pose proof (taker_rate_bounds t).
  generalize dependent (taker_fee t x). generalize dependent (taker_fee t y).
  generalize dependent (taker_rate t). intros. nia.
Qed.

Lemma taker_fee_rate_mono t t' x : u64 x -> taker_rate t <= taker_rate t' ->
  taker_fee t x <= taker_fee t' x.
Proof.
  intros. pose proof (taker_fee_spec t x H) as [A1 A2].
  pose proof (taker_fee_spec t' x H) as [C1 C2]. unfold u64 in *.
  generalize dependent (taker_fee t x). generalize dependent (taker_fee t' x).
  generalize dependent (taker_rate t). generalize dependent (taker_rate t'). intros. nia.
Qed.

Lemma nominal_rate_mono t t' : nominal t <= nominal t' -> taker_rate t <= taker_rate t'.
Proof. rewrite !taker_rate_eq. intros. apply Z.div_le_mono; lia. Qed.

Lemma maker_rebate_0 t x : u64 x -> maker_rebate t x = 0.
Proof.
  unfold u64, maker_rebate. intros.
  change (rebate_tenth_of_bps 0) with 1.
  unfold fx_mul_u64, fx_floor, w64, w128. lia.
Qed.

Lemma referrer_rebate_le f : 0 <= f -> 0 <= referrer_rebate f <= f.
Proof. unfold referrer_rebate. lia. Qed.

Lemma remove_taker_fee_ok t L : u64 L ->
  exists n, remove_taker_fee t L = Ok n /\ 0 <= n <= L /\
    n * (B64 + taker_rate t) <= L * B64 < (n + 1) * (B64 + taker_rate t).
Proof.
  unfold u64, remove_taker_fee, fx_div, fx_from_int, fx_add, fx_one, w128. intros HL.
  pose proof (taker_rate_bounds t) as Hr. set (r := taker_rate t) in *. clearbody r.
  rewrite (Z.mod_small (L * B64)) by lia.
  rewrite (Z.mod_small (B64 + r)) by lia.
  set (q := L * B64 / (B64 + r)).
  assert (Hq : q * (B64 + r) <= L * B64 < (q + 1) * (B64 + r)).
  { subst q. pose proof (Z.div_mod (L * B64) (B64 + r) ltac:(lia)).
    pose proof (Z.mod_pos_bound (L * B64) (B64 + r) ltac:(lia)). nia. }
  clearbody q.
  assert (0 <= q <= L) by nia.
  replace (q <? B64) with true by lia.
  exists q. repeat split; try lia.
Qed.

(** Spending at most the net amount costs at most the limit, fees included. *)
Lemma remove_fee_sound t L n x :
  u64 L -> remove_taker_fee t L = Ok n -> 0 <= x <= n -> x + taker_fee t x <= L.
Proof.
  intros HL Hn Hx.
  destruct (remove_taker_fee_ok t L HL) as (n' & E & Hn' & Hb).
  rewrite E in Hn. inversion Hn; subst n'. clear Hn E.
  assert (Hu : u64 x) by (unfold u64 in *; lia).
  pose proof (taker_fee_spec t x Hu) as [A1 A2].
  pose proof (taker_rate_bounds t).
  unfold u64 in *.
  generalize dependent (taker_fee t x). generalize dependent (taker_rate t). intros r *.
  intros. nia.
Qed.

Lemma remove_fee_tight t L n :
  u64 L -> remove_taker_fee t L = Ok n ->
  L - n = taker_fee t n \/ L - n = taker_fee t n + 1.
Proof.
  intros HL Hn. pose proof (remove_fee_sound t L n n HL Hn) as Hs.
  destruct (remove_taker_fee_ok t L HL) as (n' & E & Hn' & Hb).
  rewrite E in Hn. inversion Hn; subst n'. clear Hn E.
  assert (Hu : u64 n) by (unfold u64 in *; lia).
  pose proof (taker_fee_spec t n Hu) as [A1 A2].
  pose proof (taker_rate_bounds t). specialize (Hs ltac:(lia)).
  unfold u64 in *.
  generalize dependent (taker_fee t n). generalize dependent (taker_rate t). intros r *.
  intros. nia.
Qed.

Lemma add_remove_fee t x n :
  u64 x -> u64 (x + taker_fee t x) -> remove_taker_fee t (x + taker_fee t x) = Ok n ->
  x <= n <= x + 1.
Proof.
  intros Hx HL Hn.
  destruct (remove_taker_fee_ok t _ HL) as (n' & E & Hn' & Hb).
  rewrite E in Hn. inversion Hn; subst n'. clear Hn E.
  pose proof (taker_fee_spec t x Hx) as [A1 A2].
  pose proof (taker_rate_bounds t). unfold u64 in *.
  generalize dependent (taker_fee t x). generalize dependent (taker_rate t). intros r *.
  intros. nia.
Qed.

Lemma positive_net_fees tt mt x : u64 x -> 0 < x ->
  maker_rebate mt x + referrer_rebate (taker_fee tt x) < taker_fee tt x.
Proof.
  intros. rewrite maker_rebate_0 by assumption.
  pose proof (taker_fee_pos tt x H H0). unfold referrer_rebate. lia.
Qed.

Lemma fee_vs_nominal t x : u64 x ->
  x * nominal t <= 100000 * (taker_fee t x + 1) /\
  100000 * (taker_fee t x - 1) < x * nominal t.
Proof.
  intros Hx. pose proof (taker_fee_spec t x Hx) as [A1 A2].
  pose proof (taker_rate_nominal t) as [N1 N2]. unfold u64 in *.
  generalize dependent (taker_fee t x). generalize dependent (taker_rate t).
  generalize dependent (nominal t). intros. nia.
Qed.

From Verif Require Import FeesSpec.

Lemma taker_fee_rounded_up t x : u64 x ->
  exists r, is_fixed_rate t r /\ rounded_up x r (taker_fee t x).
Proof.
  intros Hx. exists (taker_rate t). split.
  - pose proof (taker_rate_nominal t). unfold is_fixed_rate.
    replace (published_rate t) with (nominal t) by (destruct t; reflexivity).
    change (2 ^ 64) with B64. lia.
  - pose proof (taker_fee_spec t x Hx) as [A1 A2]. unfold rounded_up.
    change (2 ^ 64) with B64. split; [lia|]. intros. nia.
Qed.

Lemma taker_fee_full t t' x y : u64 x -> u64 y ->
  (exists r, is_fixed_rate t r /\ rounded_up x r (taker_fee t x)) /\
  0 <= taker_fee t x <= x /\
  (taker_fee t x = 0 <-> x = 0) /\
  (x <= y -> taker_fee t x <= taker_fee t y) /\
  (published_rate t <= published_rate t' -> taker_fee t x <= taker_fee t' x) /\
  (100000 * (taker_fee t x - 1) < x * published_rate t <= 100000 * (taker_fee t x + 1)).
Proof.
  intros Hx Hy. split; [apply taker_fee_rounded_up; assumption|].
  split; [apply taker_fee_le; assumption|].
  split.
  { split; intros E.
    - destruct (Z.eq_dec x 0); [assumption|].
      pose proof (taker_fee_pos t x Hx ltac:(unfold u64 in *; lia)). lia.
    - subst. apply taker_fee_0. }
  split; [intros; apply taker_fee_mono; assumption|].
  split.
  { intros. apply taker_fee_rate_mono; [assumption|]. apply nominal_rate_mono.
    destruct t, t'; exact H. }
  pose proof (fee_vs_nominal t x Hx).
  replace (published_rate t) with (nominal t) by (destruct t; reflexivity). lia.
Qed.

Lemma net_fee_full tt mt x : u64 x ->
  0 <= maker_rebate mt x /\ 0 <= referrer_rebate (taker_fee tt x) /\
  maker_rebate mt x + referrer_rebate (taker_fee tt x) <= taker_fee tt x /\
  (0 < x -> maker_rebate mt x + referrer_rebate (taker_fee tt x) < taker_fee tt x) /\
  (* keeps at least 80% of every fee *)
  4 * taker_fee tt x <= 5 * (taker_fee tt x - maker_rebate mt x - referrer_rebate (taker_fee tt x)).
Proof.
  intros Hx. rewrite maker_rebate_0 by assumption.
  pose proof (taker_fee_le tt x Hx). pose proof (positive_net_fees tt mt x Hx) as P.
  rewrite maker_rebate_0 in P by assumption. unfold referrer_rebate in *.
  repeat split; try lia.
Qed.

Lemma spend_limit_full t L : u64 L ->
  exists n, remove_taker_fee t L = Ok n /\ 0 <= n <= L /\
    (forall x, 0 <= x <= n -> x + taker_fee t x <= L) /\
    (forall x, u64 x -> x + taker_fee t x <= L -> x <= n).
Proof.
  intros HL. destruct (remove_taker_fee_ok t L HL) as (n & E & Hn & Hb).
  exists n. split; [assumption|]. split; [assumption|]. split.
  - intros x Hx. eapply remove_fee_sound; eassumption.
  - intros x Hx Hle. pose proof (taker_fee_spec t x Hx) as [A1 A2].
    pose proof (taker_rate_bounds t). unfold u64 in *.
    generalize dependent (taker_fee t x). generalize dependent (taker_rate t). intros r *.
    intros. nia.
Qed.

Lemma tier_from_balances_spec m srm msrm :
  0 <= srm -> 0 <= msrm ->
  let t := tier_from_balances m srm msrm in
  (In m stable_markets <-> t = Stable) /\
  (~ In m stable_markets -> (0 < msrm <-> t = MSRM)) /\
  (~ In m stable_markets -> msrm = 0 ->
    exists th, srm_threshold t = Some th /\ th <= srm /\
      forall t' th', srm_threshold t' = Some th' -> th < th' -> srm < th').
Proof.
  intros Hs Hm t.
  assert (Hin : In m stable_markets <-> existsb (Z.eqb m) stable_markets = true).
  { rewrite existsb_exists. split.
    - intros. exists m. rewrite Z.eqb_refl. auto.
    - intros (x & Hx & E). apply Z.eqb_eq in E. subst. assumption. }
  subst t. unfold tier_from_balances.
  destruct (existsb (Z.eqb m) stable_markets) eqn:E.
  { split; [tauto|]. split; intros; exfalso; tauto. }
  assert (Hn : ~ In m stable_markets) by (rewrite Hin; discriminate). clear Hin E.
  destruct (1 <=? msrm) eqn:E1.
  { split; [split; [tauto|discriminate]|]. split; [intros; split; auto; lia|intros; lia]. }
  repeat match goal with |- context [if ?b then _ else _] => destruct b eqn:? end.
  all: split; [split; [tauto|discriminate]|]; split; [intros; split; [lia|discriminate]|].
  all: intros _ _; eexists; split; [reflexivity|]; split; [lia|].
  all: intros t' th' Ht Hlt; destruct t'; inversion Ht; subst; lia.
Qed.

Lemma tier_monotone m srm msrm srm' msrm' :
  0 <= srm <= srm' -> 0 <= msrm <= msrm' ->
  published_rate (tier_from_balances m srm' msrm') <= published_rate (tier_from_balances m srm msrm).
Proof.
  intros. unfold tier_from_balances.
  destruct (existsb (Z.eqb m) stable_markets); [lia|].
  repeat match goal with |- context [if ?b then _ else _] => destruct b eqn:? end;
    cbn [published_rate]; lia.
Qed.

Lemma load_fee_tier_spec m owner da t :
  load_fee_tier m owner da = Ok t ->
  (forall a, da = Some a -> da_owner a = owner) /\
  t = tier_from_balances m
        (match da with Some a => if da_mint a =? srm_mint then da_balance a else 0 | None => 0 end)
        (match da with Some a => if da_mint a =? msrm_mint then da_balance a else 0 | None => 0 end).
Proof.
  unfold load_fee_tier. destruct da as [a|]; [|intros E; inversion E; subst; split; [discriminate|reflexivity]].
  unfold check. destruct (da_owner a =? owner) eqn:Eo; cbn [rbind]; [|discriminate].
  apply Z.eqb_eq in Eo. intros E. split; [intros a' Ea; inversion Ea; subst; reflexivity|].
  destruct (da_mint a =? srm_mint) eqn:E1.
  - apply Z.eqb_eq in E1. rewrite E1. change (srm_mint =? msrm_mint) with false.
    inversion E; reflexivity.
  - destruct (da_mint a =? msrm_mint); inversion E; reflexivity.
Qed.

Lemma load_fee_tier_foreign m owner a :
  da_owner a <> owner -> load_fee_tier m owner (Some a) = Err EAssert.
Proof.
  intros. unfold load_fee_tier, check.
  replace (da_owner a =? owner) with false by lia. reflexivity.
Qed.
