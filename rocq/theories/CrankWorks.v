(** What the crank program gets done: one instruction, one turn of its loop, many turns. *)
From Coq Require Import Sorted Permutation.
From Verif Require Import Base BaseProofs Fees ListSum Queue QueueProofs Codec CodecProofs Critbit CritbitSlab Market Matching Slots MatchSteps MatchRefine Ledger MatchSpec Core CoreInv Instr InstrProofs Store Process StoreProofs World WorldInv WorldSpec WorldFacts WorldSizes WorldMain WorldExit Borsh BorshProofs Layout LayoutSpec Client ClientSpec Crank CrankSpec CrankLists CrankProofs.

Section Works.
Variable e : env.
Hypothesis EO : env_ok e.
Section One.
Variables (s : store) (k : Z) (m : market) (A : astate) (L : list (Z * open_orders)).
Hypothesis (H : history e s) (SN : seen e s k m A L) (P : usable m).
Let WI := reachable_inv e EO s H.

Theorem length_read b : LayoutSpec.holds s (m_event_q m) b -> c_length b = Ok (zlen (a_evs A)).
Proof.
  intros HB. destruct (read_events e s k m A L WI SN P b (history_roomy e s H) HB) as (d & s0 & s1 & CI & CE & E). unfold c_length. rewrite CI. cbn [rbind]. rewrite CE. cbn [rbind]. f_equal.
  pose proof (read_len A s0 s1 E) as RL. unfold zlen. lia.
Qed.
Lemma evs_nil_len : (length (a_evs A) =? 0)%nat = true <-> a_evs A = [].
Proof. rewrite Nat.eqb_eq. destruct (a_evs A); split; try reflexivity; discriminate. Qed.

(** ** The one-off command *)
Theorem once_works b prog p cw pw c : no_overflow e s -> ~ needs_crank_authority m -> LayoutSpec.holds s (m_event_q m) b ->
  (a_evs A = [] /\ c_once prog (keys_of k m p) cw pw b = Ok None) \/
  (a_evs A <> [] /\ exists ci s' j, c_once prog (keys_of k m p) cw pw b = Ok (Some ci) /\ process_bytes e c s (ci_data ci) (as_given ci) = Ok s' /\
     consumes e s s' k m A L (firstn j (a_evs A)) /\ (distinct (a_evs A) <= 32 -> Z.of_nat j = Z.min (zlen (a_evs A)) (distinct (a_evs A) + 4))).
Proof.
  intros G NC HB. destruct (read_events e s k m A L WI SN P b (history_roomy e s H) HB) as (d & s0 & s1 & CI & CE & E). unfold c_once. rewrite CI. cbn [rbind]. rewrite CE. cbn [rbind]. cbv zeta.
  pose proof (read_len A s0 s1 E) as RL. rewrite (read_owners A s0 s1 E), RL. destruct (length (a_evs A) =? 0)%nat eqn:Z0; [left; split; [apply evs_nil_len; exact Z0|reflexivity]|].
  assert (NE : a_evs A <> []) by (intros X; apply evs_nil_len in X; congruence). right. split; [exact NE|].
  set (all := c_dedup (c_sort (map ev_owner (a_evs A)))). set (oos := firstn 32 all).
  assert (SA : StronglySorted Z.lt all) by (apply dedup_sorted, sort_sorted). assert (SO : StronglySorted Z.lt oos) by (apply firstn_sorted; exact SA).
  assert (IN : forall x, In x all <-> exists v, In v (a_evs A) /\ ev_owner v = x) by (intros x; unfold all; rewrite dedup_in, sort_in, in_map_iff; split; intros (v & V1 & V2); exists v; split; assumption).
  assert (LA : zlen all = distinct (a_evs A)).
  { apply Z.le_antisymm; [apply distinct_ge; [apply sorted_nodup; exact SA|intros x; apply IN]|apply distinct_le; intros v IV; apply IN; eauto]. }
  assert (NO : oos <> []). { destruct (a_evs A) as [|v r]; [congruence|]. unfold oos. destruct all as [|x t] eqn:EA; [|discriminate]. exfalso. apply (proj2 (IN (ev_owner v))). exists v. split; [left; reflexivity|reflexivity]. }
  destruct (consume_ok e EO s k m A L H G SN P prog oos p cw pw (zlen oos + 4) c NC NO SO) as (s' & R & C).
  destruct (served_start oos (a_evs A) (Z.to_nat ((zlen oos + 4) mod 65536))) as (j & EJ & J1 & J2 & J3 & J4). rewrite EJ in C. eexists. exists s', j. split; [reflexivity|]. split; [exact R|]. split; [exact C|].
  intros D32. assert (EO32 : oos = all) by (apply firstn_all2; unfold zlen in LA; lia). rewrite EO32, LA in *. pose proof (distinct_nonneg (a_evs A)). rewrite Z.mod_small in * by lia.
  unfold zlen. destruct J4 as [->|[->|(v & NV & NI)]]; [lia|lia|]. exfalso. apply NI. apply IN. exists v. split; [|reflexivity]. eapply nth_error_In. exact NV.
Qed.

(** ** One turn *)
Definition copies (o : c_opts) : Z := Z.min (co_workers o) (2 * zlen (a_evs A) / co_per_worker o + 1).
Lemma turn_is o prog p cw pw slot cranked recent eb rb : fetched s m eb rb -> 132 <= a_len (sget s (m_req_q m)) -> 0 < co_per_worker o ->
  (~ has_work o slot cranked recent (a_evs A) /\ c_turn o prog (keys_of k m p) cw pw slot cranked recent eb rb = Ok []) \/
  (has_work o slot cranked recent (a_evs A) /\ c_turn o prog (keys_of k m p) cw pw slot cranked recent eb rb =
     Ok (repeat (c_consume prog (c_used (co_accounts o) [] (map ev_owner (a_evs A))) (keys_of k m p) cw pw (co_per_worker o)) (Z.to_nat (copies o)))).
Proof.
  intros [F1 F2 F3] RL PW. destruct (read_events e s k m A L WI SN P eb (history_roomy e s H) F1) as (d & s0 & s1 & CI & CE & E). destruct (read_requests e s k m A L WI SN P rb F2 F3 RL) as (d' & CI' & CE').
  unfold c_turn, has_work. destruct (Z.leb_spec slot cranked) as [LE|LT]; [left; split; [lia|reflexivity]|]. rewrite CI. cbn [rbind]. rewrite CE. cbn [rbind]. rewrite CI'. cbn [rbind]. rewrite CE'. cbn [rbind]. cbv zeta.
  pose proof (read_len A s0 s1 E) as LN. rewrite (read_owners A s0 s1 E). replace (zlen s0 + zlen s1) with (zlen (a_evs A)) by (unfold zlen; lia).
  destruct (Z.eqb_spec (zlen (a_evs A)) 0) as [Z0|NZ]; [left; split; [|reflexivity]; intros (_ & X & _); apply X; apply evs_nil_len; unfold zlen in Z0; apply Nat.eqb_eq; lia|].
  assert (NE : a_evs A <> []) by (intros X; rewrite X in NZ; apply NZ; reflexivity).
  destruct recent; cbn [andb].
  - destruct (Z.ltb_spec (zlen (a_evs A)) (co_max_len o)) as [L1|L1]; [left; split; [|reflexivity]; intros (_ & _ & X); specialize (X eq_refl); lia|]. right. split; [tauto|]. replace (co_per_worker o =? 0) with false by lia. reflexivity.
  - right. split; [split; [exact LT|split; [exact NE|discriminate]]|]. replace (co_per_worker o =? 0) with false by lia. reflexivity.
Qed.
Lemma used_ok n : a_evs A <> [] -> let oos := c_used n [] (map ev_owner (a_evs A)) in oos <> [] /\ StronglySorted Z.lt oos.
Proof.
  intros NE. cbv zeta. destruct (used_spec n (map ev_owner (a_evs A)) [] ltac:(constructor)) as (SO & L1 & _). split; [|exact SO]. intros X. rewrite X in L1.
  assert (map ev_owner (a_evs A) <> []) by (destruct (a_evs A); [congruence|discriminate]). specialize (L1 H0). unfold zlen in L1. cbn [length] in L1. lia.
Qed.
Theorem turn_works o prog p cw pw slot cranked recent eb rb c : no_overflow e s -> ~ needs_crank_authority m -> fetched s m eb rb -> 132 <= a_len (sget s (m_req_q m)) -> 0 < co_per_worker o -> 0 < co_workers o ->
  exists txs, c_turn o prog (keys_of k m p) cw pw slot cranked recent eb rb = Ok txs /\ (txs <> [] <-> has_work o slot cranked recent (a_evs A)) /\
    (has_work o slot cranked recent (a_evs A) -> zlen txs = Z.min (co_workers o) (2 * zlen (a_evs A) / co_per_worker o + 1) /\
     exists s' j, all_run e c s txs = Ok s' /\ consumes e s s' k m A L (firstn j (a_evs A)) /\ as_far_as (Z.max 1 (co_accounts o)) (zlen txs * (co_per_worker o mod 65536)) (a_evs A) j /\
       (co_per_worker o mod 65536 <> 0 -> (1 <= j)%nat)).
Proof.
  intros G NC F RL PW WK. destruct (turn_is o prog p cw pw slot cranked recent eb rb F RL PW) as [[N E]|[W E]]; rewrite E; eexists; (split; [reflexivity|]); [split; [tauto|intros X; contradiction]|].
  assert (C1 : 1 <= copies o) by (unfold copies; assert (0 <= 2 * zlen (a_evs A) / co_per_worker o) by (apply Z.div_pos; unfold zlen; lia); lia).
  set (ci := c_consume prog _ _ cw pw _). assert (LT : zlen (repeat ci (Z.to_nat (copies o))) = copies o) by (unfold zlen; rewrite repeat_length; lia). split.
  - split; [intros _; exact W|]. intros _ X. rewrite X in LT. unfold zlen in LT. cbn [length] in LT. lia.
  - intros _. split; [exact LT|]. rewrite LT. destruct W as (_ & NE & _). destruct (used_ok (co_accounts o) NE) as [NO SO].
    destruct (copies_ok e EO s k m A L prog _ p cw pw (co_per_worker o) c (Z.to_nat (copies o) - 1) H G SN P NC NO SO) as (s' & R & C). fold ci in R.
    replace (S (Z.to_nat (copies o) - 1)) with (Z.to_nat (copies o)) in R, C by lia. rewrite Z2Nat.id in C by lia.
    pose proof (Z.mod_pos_bound (co_per_worker o) 65536 ltac:(lia)) as BN. destruct (used_reach (co_accounts o) (copies o * (co_per_worker o mod 65536)) (a_evs A) ltac:(nia) NE) as (j & EJ & FJ & J1).
    rewrite EJ in C. exists s', j. split; [exact R|]. split; [exact C|]. split; [exact FJ|]. intros NZ. apply J1. nia.
Qed.
End One.

(** Whatever it was built from, nothing it sends is refused. *)
Theorem stale_works s k m A L o prog p cw pw slot cranked recent eb rb txs ci c : history e s -> no_overflow e s -> seen e s k m A L -> usable m -> ~ needs_crank_authority m ->
  c_turn o prog (keys_of k m p) cw pw slot cranked recent eb rb = Ok txs -> In ci txs ->
  exists s' j, process_bytes e c s (ci_data ci) (as_given ci) = Ok s' /\ consumes e s s' k m A L (firstn j (a_evs A)).
Proof.
  intros H G SN P NC T IC. unfold c_turn in T. destruct (slot <=? cranked); [injection T as <-; destruct IC|]. apply rbind_ok in T. destruct T as (d & _ & T). apply rbind_ok in T. destruct T as ([s0 s1] & _ & T).
  apply rbind_ok in T. destruct T as (rd & _ & T). apply rbind_ok in T. destruct T as (x & _ & T). cbv zeta in T. destruct (zlen s0 + zlen s1 =? 0) eqn:Z0; [injection T as <-; destruct IC|].
  destruct (recent && _); [injection T as <-; destruct IC|]. apply rbind_ok in T. destruct T as (u & _ & T). injection T as <-. apply repeat_spec in IC. subst ci.
  destruct (used_spec (co_accounts o) (map e_owner (s0 ++ s1)) [] ltac:(constructor)) as (SO & L1 & _). cbv zeta in SO, L1.
  assert (NO : c_used (co_accounts o) [] (map e_owner (s0 ++ s1)) <> []).
  { intros X. rewrite X in L1. assert (NE : map e_owner (s0 ++ s1) <> []) by (intros Y; apply map_eq_nil in Y; apply app_eq_nil in Y; destruct Y; subst; discriminate). specialize (L1 NE). unfold zlen in L1. cbn [length] in L1. lia. }
  destruct (consume_ok e EO s k m A L H G SN P prog _ p cw pw (co_per_worker o) c NC NO SO) as (s' & R & C). exists s'.
  match type of C with consumes _ _ _ _ _ _ _ (served ?n ?oos _) => destruct (served_start oos (a_evs A) n) as (j & EJ & _) end. rewrite EJ in C. eauto.
Qed.
Theorem once_stale s k m A L prog p cw pw b ci c : history e s -> no_overflow e s -> seen e s k m A L -> usable m -> ~ needs_crank_authority m ->
  c_once prog (keys_of k m p) cw pw b = Ok (Some ci) ->
  exists s' j, process_bytes e c s (ci_data ci) (as_given ci) = Ok s' /\ consumes e s s' k m A L (firstn j (a_evs A)).
Proof.
  intros H G SN P NC T. unfold c_once in T. apply rbind_ok in T. destruct T as (d & _ & T). apply rbind_ok in T. destruct T as ([s0 s1] & _ & T). destruct (length s0 + length s1 =? 0)%nat eqn:Z0; [discriminate|]. cbv zeta in T. injection T as <-.
  set (oos := firstn 32 (c_dedup (c_sort (map e_owner (s0 ++ s1))))) in *. assert (SO : StronglySorted Z.lt oos) by (apply firstn_sorted, dedup_sorted, sort_sorted).
  assert (NO : oos <> []).
  { unfold oos. destruct (c_dedup (c_sort (map e_owner (s0 ++ s1)))) as [|x t] eqn:EA; [|discriminate]. exfalso. apply Nat.eqb_neq in Z0. destruct (map e_owner (s0 ++ s1)) as [|y r] eqn:EM.
    - apply (f_equal (@length _)) in EM. rewrite map_length, app_length in EM. cbn [length] in EM. lia.
    - assert (X : In y (c_dedup (c_sort (y :: r)))) by (rewrite dedup_in, sort_in; left; reflexivity). rewrite EA in X. destruct X. }
  destruct (consume_ok e EO s k m A L H G SN P prog oos p cw pw (zlen oos + 4) c NC NO SO) as (s' & R & C). exists s'.
  destruct (served_start oos (a_evs A) (Z.to_nat ((zlen oos + 4) mod 65536))) as (j & EJ & _). rewrite EJ in C. eauto.
Qed.
(** ... except where only the market's crank authority may consume: there everything it sends is. *)
Theorem turn_refused s k m A L o prog p cw pw slot cranked recent eb rb txs ci c s' : history e s -> no_overflow e s -> seen e s k m A L -> usable m -> needs_crank_authority m ->
  c_turn o prog (keys_of k m p) cw pw slot cranked recent eb rb = Ok txs -> In ci txs -> process_bytes e c s (ci_data ci) (as_given ci) <> Ok s'.
Proof.
  intros H G SN P NC T IC. unfold c_turn in T. destruct (slot <=? cranked); [injection T as <-; destruct IC|]. apply rbind_ok in T. destruct T as (d & _ & T). apply rbind_ok in T. destruct T as ([s0 s1] & _ & T).
  apply rbind_ok in T. destruct T as (rd & _ & T). apply rbind_ok in T. destruct T as (x & _ & T). cbv zeta in T. destruct (zlen s0 + zlen s1 =? 0) eqn:Z0; [injection T as <-; destruct IC|].
  destruct (recent && _); [injection T as <-; destruct IC|]. apply rbind_ok in T. destruct T as (u & _ & T). injection T as <-. apply repeat_spec in IC. subst ci.
  destruct (used_spec (co_accounts o) (map e_owner (s0 ++ s1)) [] ltac:(constructor)) as (SO & L1 & _). cbv zeta in SO, L1.
  assert (NO : c_used (co_accounts o) [] (map e_owner (s0 ++ s1)) <> []).
  { intros X. rewrite X in L1. assert (NE : map e_owner (s0 ++ s1) <> []) by (intros Y; apply map_eq_nil in Y; apply app_eq_nil in Y; destruct Y; subst; discriminate). specialize (L1 NE). unfold zlen in L1. cbn [length] in L1. lia. }
  exact (consume_refused e EO s k m A L H G SN P prog _ p cw pw (co_per_worker o) c s' NC NO SO).
Qed.

(** ** Many turns *)
Lemma consumes_split s s' k m A L vs : consumes e s s' k m A L vs -> exists rest, a_evs A = vs ++ rest.
Proof. intros (rest & _ & E & _). eauto. Qed.
Lemma copies_len prog oos ks cw pw lim c x n : forall s s', all_run e c s (repeat (c_consume prog oos ks cw pw lim) n) = Ok s' -> a_len (sget s' x) = a_len (sget s x).
Proof.
  induction n as [|n IH]; intros s s' HR; cbn [repeat all_run] in HR; [injection HR as <-; reflexivity|]. apply rbind_ok in HR. destruct HR as (s1 & HP & HR). rewrite (IH _ _ HR).
  pose proof (Z.mod_pos_bound lim 65536 ltac:(lia)) as BN. assert (WF : wf_instr (IConsumeEvents (lim mod 65536))) by (cbn; unfold u16; lia).
  unfold process_bytes in HP. change (ci_data _) with (pack (IConsumeEvents (lim mod 65536))) in HP. rewrite (pack_unpack _ WF) in HP. cbn [ok_or rbind] in HP.
  refine (kp_len _ _ (process_kept _ _ _ _ _ _ HP _ _) x); discriminate.
Qed.
Theorem turns_work o c k m p cw pw n s s' : turns e c o k m p cw pw n s s' -> forall A L, good e s -> seen e s k m A L -> usable m -> ~ needs_crank_authority m ->
  132 <= a_len (sget s (m_req_q m)) -> 0 < co_per_worker o -> co_per_worker o mod 65536 <> 0 -> 0 < co_workers o ->
  exists vs, consumes e s s' k m A L vs /\ Z.min (Z.of_nat n) (zlen (a_evs A)) <= zlen vs /\ good e s'.
Proof.
  induction 1 as [s|n s s1 s' eb rb txs slot cranked F LT T R TN IH]; intros A L GD SN P NC RL PW PZ WK.
  - exists []. split; [apply consumes_none; exact SN|]. split; [unfold zlen; cbn [length]; lia|exact GD].
  - destruct (turn_is s k m A L (gd_h _ _ GD) SN P o (e_prog e) p cw pw slot cranked false eb rb F RL PW) as [[NW E]|[HW E]].
    + rewrite E in T. injection T as <-. cbn [all_run] in R. injection R as <-. assert (EV : a_evs A = []). { destruct (a_evs A) as [|v r] eqn:EA; [reflexivity|]. exfalso. apply NW. split; [exact LT|]. split; discriminate. }
      destruct (IH A L GD SN P NC RL PW PZ WK) as (vs & C & LV & G'). exists vs. split; [exact C|]. split; [|exact G']. rewrite EV in *. unfold zlen in *. cbn [length] in *. lia.
    + destruct (turn_works s k m A L (gd_h _ _ GD) SN P o (e_prog e) p cw pw slot cranked false eb rb c (gd_g _ _ GD) NC F RL PW WK) as (txs' & T' & _ & TW). assert (txs' = txs) as -> by congruence.
      destruct (TW HW) as (_ & s1' & j & R' & C & FJ & J1). assert (s1' = s1) as -> by congruence. specialize (J1 PZ). destruct HW as (_ & NE & _). destruct (used_ok A (co_accounts o) NE) as [NO SO].
      assert (G1 : good e s1). { rewrite E in T. injection T as <-. eapply copies_good; [exact EO|exact P|exact NC|exact NO|exact SO|exact GD|exact SN|exact R]. }
      assert (RL1 : 132 <= a_len (sget s1 (m_req_q m))).
      { rewrite E in T. injection T as <-. rewrite (copies_len _ _ _ _ _ _ _ (m_req_q m) _ _ _ R). exact RL. }
      destruct C as (rest & L1 & E1 & SN1 & K1 & B1 & O1). destruct (IH _ L1 G1 SN1 P NC RL1 PW PZ WK) as (ws & C2 & LW & G'). exists (firstn j (a_evs A) ++ ws). split; [|split; [|exact G']].
      * eapply consumes_app; eassumption.
      * cbn [a_evs] in LW. apply (f_equal (@length _)) in E1. destruct FJ as (J2 & _). unfold zlen in *. rewrite app_length, firstn_length in *. lia.
Qed.
End Works.
