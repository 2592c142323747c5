(** The pool's fees. *)
From Verif Require Import Base BaseProofs Fees Core Instr Store Borsh PoolStore Pool.

(** The quotient rounded up. *)
Definition ceil_div (a b : Z) : Z := - (- a / b).
Lemma ceil_spec a b : 0 < b -> (ceil_div a b - 1) * b < a <= ceil_div a b * b.
Proof. intros H. unfold ceil_div. pose proof (Z.div_mod (- a) b ltac:(lia)). pose proof (Z.mod_pos_bound (- a) b ltac:(lia)). nia. Qed.
Lemma ceil_minus a b : 0 < b -> (a - 1) / b + 1 = ceil_div a b.
Proof.
  intros H. pose proof (ceil_spec a b H). pose proof (Z.div_mod (a - 1) b ltac:(lia)). pose proof (Z.mod_pos_bound (a - 1) b ltac:(lia)). nia.
Qed.
Lemma ceil_plus a b : 0 < b -> (a + (b - 1)) / b = ceil_div a b.
Proof.
  intros H. rewrite <- ceil_minus by assumption. replace (a + (b - 1)) with (a - 1 + 1 * b) by lia. rewrite Z.div_add by lia. reflexivity.
Qed.
(** The stated fee schedule. *)
Definition whole_fee (rate tokens : Z) : Z := ceil_div (tokens * rate) 1000000.
Definition lqd_share (rate tokens : Z) : Z := Z.max (whole_fee rate tokens * 2 / 5) (ceil_div tokens 10000).
Definition ref_share (rate tokens : Z) : Z := Z.min (lqd_share rate tokens / 2) (whole_fee rate tokens - lqd_share rate tokens).
Definition init_share (rate tokens : Z) : Z := whole_fee rate tokens - lqd_share rate tokens - ref_share rate tokens.

Lemma schedule rate tokens : 150 <= rate < 1000000 -> 0 <= tokens ->
  0 <= lqd_share rate tokens /\ 0 <= ref_share rate tokens /\ 0 <= init_share rate tokens /\
  lqd_share rate tokens <= whole_fee rate tokens <= tokens /\ ceil_div tokens 10000 <= lqd_share rate tokens.
Proof.
  intros R T. unfold init_share, ref_share, lqd_share, whole_fee.
  pose proof (ceil_spec (tokens * rate) 1000000 eq_refl) as A. pose proof (ceil_spec tokens 10000 eq_refl) as B.
  set (w := ceil_div (tokens * rate) 1000000) in *. set (m := ceil_div tokens 10000) in *.
  assert (W0 : 0 <= w) by nia. assert (M0 : 0 <= m) by nia. assert (W1 : w <= tokens) by nia.
  assert (MW : m <= w) by nia.
  assert (H5 : w * 2 / 5 <= w) by (apply Z.div_le_upper_bound; lia). assert (H6 : 0 <= w * 2 / 5) by (apply Z.div_pos; lia).
  set (l := Z.max (w * 2 / 5) m). assert (0 <= l <= w) by lia. assert (0 <= l / 2) by (apply Z.div_pos; lia). lia.
Qed.
Lemma fees_of_spec rate tokens : u64 tokens ->
  fees_of rate tokens =
  if (rate <? 150) || (1000000 <=? rate) then Err EInvalidArgument
  else if whole_fee rate tokens * 2 <? B64 then Ok (mkFees (lqd_share rate tokens) (init_share rate tokens) (ref_share rate tokens)) else Panic.
Proof.
  intros T. unfold fees_of, MIN_FEE_RATE, FEE_RATE_DENOMINATOR.
  destruct (_ || _) eqn:R; [reflexivity|]. assert (R' : 150 <= rate < 1000000) by lia.
  destruct (schedule rate tokens R' ltac:(unfold u64 in T; lia)) as (S1 & S2 & S3 & S4 & S5). unfold u64 in T.
  destruct (Z.eqb_spec tokens 0) as [->|N]; [reflexivity|].
  rewrite (ceil_minus (tokens * rate) 1000000 eq_refl).
  unfold lqd_share in *. unfold init_share, ref_share, lqd_share in *. fold (whole_fee rate tokens) in *. set (w := whole_fee rate tokens) in *.
  assert (W : w64 w = w) by (unfold w64; apply Z.mod_small; lia). rewrite W. unfold passert. replace (w <=? tokens) with true by lia. cbn [rbind].
  unfold cmul. destruct (Z.ltb_spec (w * 2) B64) as [L|]; [|reflexivity]. cbn [rbind].
  rewrite <- (ceil_minus tokens 10000 eq_refl) in *.
  assert (Q : 0 <= (tokens - 1) / 10000 <= tokens - 1) by (split; [apply Z.div_pos; lia|apply Z.div_le_upper_bound; lia]).
  assert (T1 : wsub tokens 1 = tokens - 1) by (unfold wsub, w64; apply Z.mod_small; lia). rewrite T1. clear T1.
  unfold wadd, w64. rewrite (Z.mod_small ((tokens - 1) / 10000 + 1)) by lia.
  set (l := Z.max (w * 2 / 5) ((tokens - 1) / 10000 + 1)) in *. replace (l <=? w) with true by lia. cbn [rbind].
  unfold wsub, w64. rewrite (Z.mod_small (w - l)) by lia. set (r := Z.min (l / 2) (w - l)) in *.
  unfold cadd at 1. replace (l + r <? B64) with true by lia. cbn [rbind]. replace (l + r <=? w) with true by lia. cbn [rbind].
  unfold csub. replace (l <=? w) with true by lia. cbn [rbind]. replace (r <=? w - l) with true by lia. cbn [rbind].
  unfold cadd. replace (l + r + (w - l - r) <? B64) with true by lia. cbn [rbind]. replace (l + r + (w - l - r) <=? tokens) with true by lia. reflexivity.
Qed.
(** What is charged once the user's own fee accounts are exempted. *)
Definition charged (rate tokens pt lqd ini ref : Z) : fees :=
  if lqd =? pt then mkFees 0 0 0
  else mkFees (lqd_share rate tokens) (if ini =? pt then 0 else init_share rate tokens) (if ref =? pt then 0 else ref_share rate tokens).
Lemma get_fees_spec cx st n f pt ua who lqd ini ref : u64 n -> cx_user cx = Some (pt, ua, who) -> cx_fees cx = Some (lqd, ini, ref) ->
  get_fees cx st n = Ok f -> f = charged (ps_rate st) n pt lqd ini ref /\ 150 <= ps_rate st < 1000000.
Proof.
  intros N U F H. unfold get_fees in H. rewrite fees_of_spec in H by assumption. destruct (_ || _) eqn:R; [discriminate|]. destruct (whole_fee (ps_rate st) n * 2 <? B64); [|discriminate].
  cbn [rbind] in H. rewrite U, F in H. injection H as <-. split; [|lia]. unfold charged.
  destruct (lqd =? pt), (ini =? pt), (ref =? pt); reflexivity.
Qed.
Lemma charged_bounds rate n pt lqd ini ref : 150 <= rate < 1000000 -> 0 <= n < B64 ->
  let f := charged rate n pt lqd ini ref in
  0 <= fe_lqd f /\ 0 <= fe_init f /\ 0 <= fe_ref f /\ fe_lqd f + fe_init f + fe_ref f <= n /\ total_fee f = fe_lqd f + fe_init f + fe_ref f.
Proof.
  intros R N. pose proof (schedule rate n R ltac:(lia)) as (S1 & S2 & S3 & S4 & S5). unfold charged.
  assert (I : init_share rate n = whole_fee rate n - lqd_share rate n - ref_share rate n) by reflexivity.
  destruct (lqd =? pt); cbn [fe_lqd fe_init fe_ref]; [unfold total_fee; cbn; lia|].
  unfold total_fee, wadd, w64. cbn [fe_lqd fe_init fe_ref].
  rewrite !Z.mod_small; destruct (ini =? pt), (ref =? pt); try lia; rewrite ?Z.mod_small; lia.
Qed.
Lemma shares_split rate tokens : 150 <= rate < 1000000 -> 0 <= tokens ->
  (whole_fee rate tokens - 1) * 1000000 < tokens * rate <= whole_fee rate tokens * 1000000 /\ whole_fee rate tokens <= tokens /\
  0 <= lqd_share rate tokens /\ 0 <= ref_share rate tokens /\ 0 <= init_share rate tokens /\
  lqd_share rate tokens + ref_share rate tokens + init_share rate tokens = whole_fee rate tokens /\
  tokens <= lqd_share rate tokens * 10000 /\ whole_fee rate tokens * 2 / 5 <= lqd_share rate tokens /\ ref_share rate tokens * 2 <= lqd_share rate tokens.
Proof.
  intros R T. destruct (schedule rate tokens R T) as (S1 & S2 & S3 & S4 & S5). pose proof (ceil_spec (tokens * rate) 1000000 eq_refl) as A. pose proof (ceil_spec tokens 10000 eq_refl) as B.
  fold (whole_fee rate tokens) in A. split; [exact A|]. split; [lia|]. split; [lia|]. split; [lia|]. split; [lia|]. split; [unfold init_share; lia|]. split; [nia|]. split; [unfold lqd_share; lia|].
  unfold ref_share. pose proof (Z.mul_div_le (lqd_share rate tokens) 2 eq_refl). lia.
Qed.
