(** Property theorems C01-C04: fees. *)
From Verif Require Import Base Fees FeesSpec FeesProofs.

(** C01 *)
Theorem C01_taker_fee : forall t t' x y, u64 x -> u64 y ->
  (exists r, is_fixed_rate t r /\ rounded_up x r (taker_fee t x)) /\
  0 <= taker_fee t x <= x /\
  (taker_fee t x = 0 <-> x = 0) /\
  (x <= y -> taker_fee t x <= taker_fee t y) /\
  (published_rate t <= published_rate t' -> taker_fee t x <= taker_fee t' x) /\
  (100000 * (taker_fee t x - 1) < x * published_rate t <= 100000 * (taker_fee t x + 1)).
Proof. exact taker_fee_full. Qed.
Print Assumptions C01_taker_fee.
Example C01_case : u64 123456789 /\ u64 (B64 - 1) /\ taker_fee TBase 123456789 = 49383 /\
  taker_fee Stable (B64 - 1) = 1844674407370955.
Proof. repeat split; vm_compute; congruence. Qed.

(** C02 *)
Theorem C02_net_fee_nonnegative : forall tt mt x, u64 x ->
  0 <= maker_rebate mt x /\ 0 <= referrer_rebate (taker_fee tt x) /\
  maker_rebate mt x + referrer_rebate (taker_fee tt x) <= taker_fee tt x /\
  (0 < x -> maker_rebate mt x + referrer_rebate (taker_fee tt x) < taker_fee tt x) /\
  4 * taker_fee tt x <= 5 * (taker_fee tt x - maker_rebate mt x - referrer_rebate (taker_fee tt x)).
Proof. exact net_fee_full. Qed.
Print Assumptions C02_net_fee_nonnegative.
Example C02_case : u64 1000000 /\ taker_fee MSRM 1000000 = 300 /\ referrer_rebate 300 = 60.
Proof. repeat split; vm_compute; congruence. Qed.

(** C03 *)
Theorem C03_spend_limit : forall t L, u64 L ->
  exists n, remove_taker_fee t L = Ok n /\ 0 <= n <= L /\
    (forall x, 0 <= x <= n -> x + taker_fee t x <= L) /\
    (forall x, u64 x -> x + taker_fee t x <= L -> x <= n).
Proof. exact spend_limit_full. Qed.
Print Assumptions C03_spend_limit.
Theorem C03_market_order_fee : forall t L n, u64 L -> remove_taker_fee t L = Ok n ->
  L - n = taker_fee t n \/ L - n = taker_fee t n + 1.
Proof. exact remove_fee_tight. Qed.
Print Assumptions C03_market_order_fee.
Theorem C03_add_then_remove : forall t x n,
  u64 x -> u64 (x + taker_fee t x) -> remove_taker_fee t (x + taker_fee t x) = Ok n ->
  x <= n <= x + 1.
Proof. exact add_remove_fee. Qed.
Print Assumptions C03_add_then_remove.
Example C03_case : u64 1000400 /\ remove_taker_fee TBase 1000400 = Ok 1000000.
Proof. repeat split; vm_compute; congruence. Qed.

(** C04 *)
Theorem C04_tier_table : forall m srm msrm,
  0 <= srm -> 0 <= msrm ->
  let t := tier_from_balances m srm msrm in
  (In m stable_markets <-> t = Stable) /\
  (~ In m stable_markets -> (0 < msrm <-> t = MSRM)) /\
  (~ In m stable_markets -> msrm = 0 ->
    exists th, srm_threshold t = Some th /\ th <= srm /\
      forall t' th', srm_threshold t' = Some th' -> th < th' -> srm < th').
Proof. exact tier_from_balances_spec. Qed.
Print Assumptions C04_tier_table.
Theorem C04_tier_monotone : forall m srm msrm srm' msrm',
  0 <= srm <= srm' -> 0 <= msrm <= msrm' ->
  published_rate (tier_from_balances m srm' msrm') <= published_rate (tier_from_balances m srm msrm).
Proof. exact tier_monotone. Qed.
Print Assumptions C04_tier_monotone.
Theorem C04_discount_account : forall m owner da t,
  load_fee_tier m owner da = Ok t ->
  (forall a, da = Some a -> da_owner a = owner) /\
  t = tier_from_balances m
        (match da with Some a => if da_mint a =? srm_mint then da_balance a else 0 | None => 0 end)
        (match da with Some a => if da_mint a =? msrm_mint then da_balance a else 0 | None => 0 end).
Proof. exact load_fee_tier_spec. Qed.
Print Assumptions C04_discount_account.
Theorem C04_foreign_discount_rejected : forall m owner a,
  da_owner a <> owner -> load_fee_tier m owner (Some a) = Err EAssert.
Proof. exact load_fee_tier_foreign. Qed.
Print Assumptions C04_foreign_discount_rejected.
Example C04_case : load_fee_tier 7 42 (Some {| da_mint := srm_mint; da_owner := 42; da_balance := 100000000000 |}) = Ok SRM5.
Proof. vm_compute. reflexivity. Qed.
