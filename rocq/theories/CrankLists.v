(** The lists the crank program builds, and reading the queue off its bytes. *)
From Coq Require Import Sorted Permutation.
From Verif Require Import Base BaseProofs Fees ListSum Queue QueueProofs Codec CodecProofs Critbit CritbitSlab Market Matching Slots MatchSteps MatchRefine Ledger MatchSpec Core CoreInv Instr InstrProofs Store Process StoreProofs World WorldInv WorldSpec WorldFacts WorldSizes Borsh BorshProofs Layout LayoutSpec LayoutProofs LayoutView Client ClientSpec Crank CrankSpec.

(** ** Sorted lists *)
Lemma insert_in x y l : In y (c_insert x l) <-> y = x \/ In y l.
Proof. induction l as [|z r IH]; cbn [c_insert In]; [intuition congruence|]. destruct (x <=? z); cbn [In]; [intuition congruence|]. rewrite IH. tauto. Qed.
Lemma insert_sorted x l : StronglySorted Z.le l -> StronglySorted Z.le (c_insert x l).
Proof.
  induction 1 as [|y r S IH F]; cbn [c_insert]; [repeat constructor|]. destruct (Z.leb_spec x y).
  - constructor; [constructor; assumption|]. constructor; [assumption|]. eapply Forall_impl; [|exact F]. cbv beta. lia.
  - constructor; [exact IH|]. apply Forall_forall. intros z IZ. rewrite insert_in in IZ. destruct IZ as [->|IZ]; [lia|]. rewrite Forall_forall in F. auto.
Qed.
Lemma sort_in y l : In y (c_sort l) <-> In y l.
Proof. induction l as [|x r IH]; cbn [c_sort In]; [tauto|]. rewrite insert_in, IH. intuition congruence. Qed.
Lemma sort_sorted l : StronglySorted Z.le (c_sort l).
Proof. induction l; cbn [c_sort]; [constructor|apply insert_sorted; assumption]. Qed.
Lemma dedup_cons x y r : c_dedup (x :: y :: r) = if x =? y then c_dedup (y :: r) else x :: c_dedup (y :: r).
Proof. reflexivity. Qed.
Lemma dedup_in y l : In y (c_dedup l) <-> In y l.
Proof.
  induction l as [|x [|z r] IH]; [reflexivity|reflexivity|]. rewrite dedup_cons. destruct (Z.eqb_spec x z) as [->|].
  - rewrite IH. cbn [In]. tauto.
  - cbn [In] in *. rewrite IH. tauto.
Qed.
Lemma dedup_sorted l : StronglySorted Z.le l -> StronglySorted Z.lt (c_dedup l).
Proof.
  induction l as [|x [|z r] IH]; intros S; [constructor|repeat constructor|]. rewrite dedup_cons. inversion S as [|? ? S1 F]; subst. specialize (IH S1).
  destruct (Z.eqb_spec x z) as [->|N]; [exact IH|]. constructor; [exact IH|]. apply Forall_forall. intros y IY. rewrite dedup_in in IY. inversion S1 as [|? ? S2 F2]; subst.
  rewrite Forall_forall in F, F2. pose proof (F z (or_introl eq_refl)). destruct IY as [<-|IY]; [lia|]. specialize (F2 y IY). lia.
Qed.
Lemma firstn_in {X} n (l : list X) y : In y (firstn n l) -> In y l.
Proof. revert l. induction n as [|n IH]; intros [|x r] H; cbn [firstn In] in *; try tauto. destruct H as [H|H]; [left; exact H|right; apply IH; exact H]. Qed.
Lemma firstn_sorted n l : StronglySorted Z.lt l -> StronglySorted Z.lt (firstn n l).
Proof.
  revert l. induction n; intros [|x r] S; cbn [firstn]; try constructor; inversion S as [|? ? S1 F]; subst; [apply IHn; assumption|].
  rewrite Forall_forall in *. intros y IY. apply F. eapply firstn_in. exact IY.
Qed.
Lemma add_in x y l : In y (c_add x l) <-> y = x \/ In y l.
Proof. induction l as [|z r IH]; cbn [c_add In]; [intuition congruence|]. destruct (x <? z); cbn [In]; [intuition congruence|]. destruct (Z.eqb_spec x z) as [->|]; cbn [In]; [intuition congruence|]. rewrite IH. tauto. Qed.
Lemma add_sorted x l : StronglySorted Z.lt l -> StronglySorted Z.lt (c_add x l).
Proof.
  induction 1 as [|y r S IH F]; cbn [c_add]; [repeat constructor|]. destruct (Z.ltb_spec x y).
  - constructor; [constructor; assumption|]. constructor; [assumption|]. eapply Forall_impl; [|exact F]. cbv beta. lia.
  - destruct (Z.eqb_spec x y) as [->|]; [constructor; assumption|]. constructor; [exact IH|]. apply Forall_forall. intros z IZ. rewrite add_in in IZ. destruct IZ as [->|IZ]; [lia|]. rewrite Forall_forall in F. auto.
Qed.
Lemma add_len x l : zlen l <= zlen (c_add x l) <= zlen l + 1.
Proof. unfold zlen. induction l as [|y r IH]; cbn [c_add]; [cbn [length]; lia|]. destruct (x <? y); [cbn [length]; lia|]. destruct (x =? y); cbn [length]; lia. Qed.
Lemma add_nonempty x l : 1 <= zlen (c_add x l).
Proof. unfold zlen. destruct l as [|y r]; cbn [c_add]; [cbn [length]; lia|]. destruct (x <? y); [cbn [length]; lia|]. destruct (x =? y); cbn [length]; lia. Qed.
Lemma sorted_nodup l : StronglySorted Z.lt l -> NoDup l.
Proof. induction 1 as [|y r S IH F]; constructor; [|exact IH]. intros I. rewrite Forall_forall in F. specialize (F y I). lia. Qed.

(** What the loop collects: the owners of a start of the queue *)
Lemma used_spec n ws : forall used, StronglySorted Z.lt used ->
  let r := c_used n used ws in
  StronglySorted Z.lt r /\ (ws <> [] -> 1 <= zlen r) /\ (zlen used <= Z.max 0 (n - 1) -> zlen r <= Z.max 1 n) /\
  exists p, (p <= length ws)%nat /\ (forall x, In x r <-> In x used \/ In x (firstn p ws)) /\ (p = length ws \/ n <= zlen r).
Proof.
  induction ws as [|w r IH]; intros used SU; cbv zeta; cbn [c_used]; cbv zeta.
  - split; [exact SU|]. split; [congruence|]. split; [lia|]. exists 0%nat. split; [lia|]. split; [intros x; cbn [firstn In]; tauto|auto].
  - pose proof (add_sorted w used SU) as S1. pose proof (add_len w used) as L1. pose proof (add_nonempty w used) as L2. destruct (Z.leb_spec n (zlen (c_add w used))) as [LE|GT].
    + split; [exact S1|]. split; [intros _; exact L2|]. split; [lia|]. exists 1%nat. split; [cbn [length]; lia|]. split; [|auto]. intros x. rewrite add_in. cbn [firstn In]. intuition congruence.
    + destruct (IH _ S1) as (H1 & H2 & H3 & p & P1 & P2 & P3). split; [exact H1|]. split; [|split].
      * intros _. destruct r as [|w2 r2]; [cbn [c_used]; exact L2|apply H2; discriminate].
      * intros LU. apply H3. lia.
      * exists (S p). split; [cbn [length]; lia|]. split; [|cbn [length]; destruct P3; [left; lia|right; assumption]]. intros x. rewrite P2, add_in. cbn [firstn In]. intuition congruence.
Qed.

(** ** A start of the queue *)
Lemma served_start oos evs : forall n, exists j, served n oos evs = firstn j evs /\ (j <= n)%nat /\ (j <= length evs)%nat /\
  (forall v, In v (firstn j evs) -> In (ev_owner v) oos) /\ (j = n \/ j = length evs \/ exists v, nth_error evs j = Some v /\ ~ In (ev_owner v) oos).
Proof.
  induction evs as [|v r IH]; intros n; [exists 0%nat; destruct n; cbn [served firstn length]; repeat split; try lia; try tauto; cbn [In]; tauto|].
  destruct n as [|n]; [exists 0%nat; cbn [served firstn length In]; repeat split; try lia; tauto|]. cbn [served]. destruct (existsb (Z.eqb (ev_owner v)) oos) eqn:E.
  - destruct (IH n) as (j & E1 & J1 & J2 & J3 & J4). exists (S j). cbn [firstn length nth_error]. rewrite E1. split; [reflexivity|]. split; [lia|]. split; [lia|]. split.
    + intros u [<-|IU]; [|auto]. apply existsb_exists in E. destruct E as (x & IX & EX). apply Z.eqb_eq in EX. congruence.
    + destruct J4 as [->|[->|J4]]; auto.
  - exists 0%nat. cbn [firstn length nth_error In]. split; [reflexivity|]. split; [lia|]. split; [lia|]. split; [tauto|]. right. right. exists v. split; [reflexivity|]. intros I.
    rewrite (proj2 (existsb_exists _ _)) in E; [discriminate|]. exists (ev_owner v). split; [assumption|apply Z.eqb_refl].
Qed.
Lemma distinct_le evs (l : list Z) : (forall v, In v evs -> In (ev_owner v) l) -> distinct evs <= zlen l.
Proof.
  intros H. unfold distinct, zlen. apply inj_le. apply NoDup_incl_length; [apply NoDup_nodup|]. intros x IX. apply nodup_In in IX. apply in_map_iff in IX. destruct IX as (v & <- & IV). auto.
Qed.
Lemma distinct_ge evs (l : list Z) : NoDup l -> (forall x, In x l -> exists v, In v evs /\ ev_owner v = x) -> zlen l <= distinct evs.
Proof.
  intros N H. unfold distinct, zlen. apply inj_le. apply NoDup_incl_length; [exact N|]. intros x IX. apply nodup_In. apply in_map_iff. destruct (H x IX) as (v & IV & E). eauto.
Qed.
Lemma distinct_nonneg evs : 0 <= distinct evs. Proof. unfold distinct, zlen. lia. Qed.
Lemma distinct_len evs : distinct evs <= zlen evs.
Proof. transitivity (zlen (map ev_owner evs)); [apply distinct_le; intros v IV; apply in_map; exact IV|unfold zlen; rewrite map_length; lia]. Qed.
Lemma nth_firstn {X} (l : list X) j v : nth_error l j = Some v -> firstn (S j) l = firstn j l ++ [v].
Proof. revert j. induction l as [|x r IH]; intros [|j] E; try discriminate; cbn [nth_error firstn app] in *; [congruence|]. f_equal. apply IH. exact E. Qed.
Lemma used_reach n lim evs : 0 <= lim -> evs <> [] ->
  exists j, served (Z.to_nat lim) (c_used n [] (map ev_owner evs)) evs = firstn j evs /\ as_far_as (Z.max 1 n) lim evs j /\ (1 <= lim -> (1 <= j)%nat).
Proof.
  intros HL NE. set (oos := c_used n [] (map ev_owner evs)). destruct (used_spec n (map ev_owner evs) [] ltac:(constructor)) as (SO & L1 & L2 & p & P1 & P2 & P3). fold oos in SO, L1, L2, P2, P3.
  assert (L1' : 1 <= zlen oos) by (apply L1; destruct evs; [congruence|discriminate]). assert (L2' : zlen oos <= Z.max 1 n) by (apply L2; unfold zlen; cbn [length]; lia).
  destruct (served_start oos evs (Z.to_nat lim)) as (j & E & J1 & J2 & J3 & J4). exists j. split; [exact E|]. rewrite map_length in P1, P3.
  assert (IN : forall x, In x oos <-> exists v, In v (firstn p evs) /\ ev_owner v = x).
  { intros x. rewrite P2. cbn [In]. rewrite firstn_map, in_map_iff. firstorder. }
  split.
  - split; [exact J2|]. split; [lia|]. split; [transitivity (zlen oos); [apply distinct_le; exact J3|exact L2']|].
    destruct J4 as [->|[->|(v & NV & NI)]]; [right; left; lia|left; reflexivity|]. right. right.
    assert (PJ : (p <= j)%nat).
    { destruct (Nat.le_gt_cases p j) as [|G]; [assumption|]. exfalso. apply NI. apply IN. exists v. split; [|reflexivity].
      apply nth_error_In with j. rewrite nth_error_firstn'. replace (j <? p)%nat with true by (symmetry; apply Nat.ltb_lt; assumption). exact NV. }
    assert (NP : n <= zlen oos).
    { destruct P3 as [->|]; [|assumption]. exfalso. assert (nth_error evs j <> None) by congruence. apply nth_error_Some in H. lia. }
    assert (zlen (ev_owner v :: oos) <= distinct (firstn (S j) evs)); [|unfold zlen in *; cbn [length] in *; lia].
    apply distinct_ge; [constructor; [exact NI|apply sorted_nodup; exact SO]|]. rewrite (nth_firstn _ _ _ NV). intros x [<-|IX]; [exists v; split; [apply in_or_app; right; left; reflexivity|reflexivity]|].
    apply IN in IX. destruct IX as (u & IU & EU). exists u. split; [|exact EU]. apply in_or_app. left. replace p with (Nat.min p j) in IU by lia. rewrite <- firstn_firstn in IU. eapply firstn_in. exact IU.
  - intros L. destruct J4 as [->|[->|(v & NV & NI)]]; [lia|destruct evs; [congruence|cbn [length]; lia]|]. destruct j as [|j]; [|lia]. exfalso. apply NI. apply IN.
    destruct evs as [|v0 r]; [congruence|]. cbn [nth_error] in NV. injection NV as <-. exists v0. split; [|reflexivity]. destruct p as [|p]; [|left; reflexivity]. exfalso.
    unfold zlen in L1'. destruct oos as [|x0 ?]; [cbn [length] in L1'; lia|]. destruct (proj1 (IN x0) (or_introl eq_refl)) as (? & [] & _).
Qed.

(** ** Reading *)
Lemma inner_ok b d : check_padding b = Ok d -> c_inner b = Ok d.
Proof.
  intros H. apply padding_ok in H. destruct H as [-> M]. unfold c_inner. rewrite framed_len. replace (5 <=? length d + 12)%nat with true by (symmetry; apply Nat.leb_le; lia). replace (12 <=? length d + 12)%nat with true by (symmetry; apply Nat.leb_le; lia). cbn [passert check rbind].
  pose proof (proj2 (padding_ok (framed d) d) (conj eq_refl M)) as P. unfold check_padding in P. rewrite framed_len in P. replace (12 <=? length d + 12)%nat with true in P by (symmetry; apply Nat.leb_le; lia). cbn [check rbind] in P.
  destruct (same_bytes (firstn 5 (framed d)) HEAD); [|discriminate]. cbn [check rbind] in P |- *. destruct (same_bytes (skipn (length d + 12 - 7) (framed d)) TAIL); [|discriminate]. cbn [check rbind] in P |- *.
  pose proof (inside_framed d) as I. unfold inside in I. rewrite framed_len in I. cbv zeta. rewrite I. rewrite M. reflexivity.
Qed.
Lemma view_padding b d : view b = d -> d <> DZero -> d <> DOther -> exists x, b = framed x /\ (length x mod 8 = 0)%nat /\ c_inner b = Ok x /\ view_of x = d.
Proof.
  intros V N1 N2. unfold view in V. destruct (all_zero b); [congruence|]. destruct (check_padding b) as [x|?|] eqn:P; [|congruence|congruence]. exists x. pose proof P as P'. apply padding_ok in P'. destruct P' as [E M].
  split; [exact E|]. split; [exact M|]. split; [apply inner_ok; exact P|exact V].
Qed.
Lemma events_read d : (32 <= length d)%nat -> let q := mkQueue (num d 8 8) (num d 16 8) (num d 24 8) (map dec_event (records 88 (skipn 32 d))) in
  q_ok q -> 1 <= zlen (q_buf q) -> exists s0 s1, c_events d = Ok (s0, s1) /\ s0 ++ s1 = q_list q.
Proof.
  intros L q [Hc Hh Hn] CAP. unfold c_events. replace (32 <=? length d)%nat with true by (symmetry; apply Nat.leb_le; assumption). cbn [passert rbind]. cbv zeta.
  set (head := num d 8 8) in *. set (count := num d 16 8) in *. set (evs := map dec_event (records 88 (skipn 32 d))) in *. cbn [q_buf q_head q_count q] in *. unfold zlen in *.
  replace (1 <=? length evs)%nat with true by (symmetry; apply Nat.leb_le; lia). cbn [check rbind]. replace (head <=? Z.of_nat (length evs)) with true by lia. cbn [passert rbind].
  rewrite firstn_length, skipn_length. set (hl := Z.min (Z.of_nat (length evs - Z.to_nat head)) count). replace (count - hl <=? Z.of_nat (Nat.min (Z.to_nat head) (length evs))) with true by lia. cbn [passert rbind].
  eexists. eexists. split; [reflexivity|]. unfold q_list. cbn [q_count q_head q_buf q]. rewrite skipn_app, firstn_app, skipn_length. replace (Z.to_nat head - length evs)%nat with 0%nat by lia. cbn [skipn]. f_equal.
  - unfold hl. destruct (Z.leb_spec count (Z.of_nat (length evs - Z.to_nat head))).
    + rewrite Z.min_r by lia. reflexivity.
    + rewrite Z.min_l by lia. rewrite !firstn_all2; [reflexivity|rewrite skipn_length; lia|rewrite skipn_length; lia].
  - rewrite firstn_firstn. f_equal. lia.
Qed.
Lemma new_owner v : e_owner (event_new v) = ev_owner v.
Proof. destruct v; reflexivity. Qed.
Section Read.
Variable e : env.
Hypothesis EO : env_ok e.
Variables (s : store) (k : Z) (m : market) (A : astate) (L : list (Z * open_orders)).
Hypothesis (WI : winv e s) (SN : seen e s k m A L) (P : usable m).
(** What is read off the event queue. *)
Lemma read_events b : roomy e s -> LayoutSpec.holds s (m_event_q m) b -> exists d s0 s1, c_inner b = Ok d /\ c_events d = Ok (s0, s1) /\ s0 ++ s1 = map event_new (a_evs A).
Proof.
  intros RM [HD _]. destruct (seen_state e s k m A L WI SN P) as (seq & o & MS). pose proof (ci_rep _ _ _ _ (ms_inv _ _ _ _ _ _ _ MS)) as R. pose proof (ms_evq _ _ _ _ _ _ _ MS) as HQ. pose proof (RM _ _ HQ) as CAP.
  pose proof HQ as HQ'. apply dexd_owned in HQ'. destruct HQ' as [_ HQ']. rewrite HD in HQ'. destruct (view_padding _ _ HQ') as (d & EB & M & CI & V); [discriminate..|].
  pose proof (view_inv d) as VI. rewrite V in VI. destruct VI as (L32 & _ & EQ). pose proof (r_q_ok _ _ R) as QO. rewrite EQ in QO, CAP.
  destruct (events_read d L32 QO ltac:(lia)) as (s0 & s1 & CE & E). exists d, s0, s1. split; [exact CI|]. split; [exact CE|]. rewrite E, <- EQ. apply R.
Qed.
Lemma read_owners s0 s1 : s0 ++ s1 = map event_new (a_evs A) -> map e_owner (s0 ++ s1) = map ev_owner (a_evs A).
Proof. intros ->. rewrite map_map. apply map_ext. apply new_owner. Qed.
Lemma read_len s0 s1 : s0 ++ s1 = map event_new (a_evs A) -> (length s0 + length s1 = length (a_evs A))%nat.
Proof. intros E. rewrite <- app_length, E, map_length. reflexivity. Qed.
(** The request queue is empty, so reading it as events finds none, if one event would fit. *)
Lemma read_requests b : LayoutSpec.holds s (m_req_q m) b -> num b 13 8 = 0 -> 132 <= a_len (sget s (m_req_q m)) -> exists d, c_inner b = Ok d /\ c_events d = Ok ([], []).
Proof.
  intros [HD HL] HH LE. destruct (seen_state e s k m A L WI SN P) as (seq & o & MS). pose proof (ms_req _ _ _ _ _ _ _ MS) as HQ. apply dexd_owned in HQ. destruct HQ as [_ HQ]. rewrite HD in HQ.
  destruct (view_padding _ _ HQ) as (d & EB & M & CI & V); [discriminate..|]. exists d. split; [exact CI|]. pose proof (view_inv d) as VI. rewrite V in VI. destruct VI as (L32 & _ & EQ). injection EQ as E1 _.
  rewrite HL, EB, framed_len in LE. assert (LD : (120 <= length d)%nat) by lia.
  assert (H0 : num d 8 8 = 0) by (rewrite <- HH, EB; symmetry; apply (num_framed d 8 8); lia).
  unfold c_events. replace (32 <=? length d)%nat with true by (symmetry; apply Nat.leb_le; lia). cbn [passert rbind]. cbv zeta. rewrite H0, <- E1.
  assert (LR : (1 <= length (map dec_event (records 88 (skipn 32 d))))%nat).
  { rewrite map_length. unfold records. assert (G : forall n w b, length (chunks n w b) = n) by (induction n; intros; cbn [chunks length]; [reflexivity|rewrite IHn; reflexivity]). rewrite G, skipn_length.
    apply Nat.div_le_lower_bound; lia. }
  replace (1 <=? _)%nat with true by (symmetry; apply Nat.leb_le; assumption). cbn [check rbind]. unfold zlen. replace (0 <=? _) with true by lia. cbn [passert rbind]. change (Z.to_nat 0) with 0%nat. cbn [firstn skipn length].
  rewrite Z.min_r by lia. change (Z.to_nat 0) with 0%nat. cbn [firstn]. reflexivity.
Qed.
End Read.
