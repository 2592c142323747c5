(** Proofs about the crank program: what it reads, what it sends and what that does. *)
From Coq Require Import Sorted Permutation.
From Verif Require Import Base BaseProofs Fees ListSum Queue QueueProofs Codec CodecProofs Critbit CritbitSlab Market Matching Slots MatchSteps MatchRefine Ledger MatchSpec Core CoreInv Instr InstrProofs Store Process StoreProofs World WorldInv WorldSpec WorldFacts WorldSizes WorldLoad WorldConsume WorldMain WorldRights WorldFwd WorldPay WorldCrank WorldExit Borsh BorshProofs Layout LayoutSpec LayoutProofs LayoutView Client ClientSpec ClientProofs ClientWorks Crank CrankSpec CrankLists.

Lemma consume_is prog oos k m p cw pw lim : c_consume prog oos (keys_of k m p) cw pw lim = b_consume_events prog oos k (m_event_q m) cw pw (lim mod 65536).
Proof. reflexivity. Qed.
Lemma served_app oos a b evs : served (a + b) oos evs = served a oos evs ++ served b oos (skipn (length (served a oos evs)) evs) \/ length (served a oos evs) <> a.
Proof.
  revert evs. induction a as [|a IH]; intros evs; [left; destruct evs; reflexivity|]. destruct evs as [|v r]; [right; cbn; lia|]. cbn [Nat.add served]. destruct (existsb _ _); [|right; cbn; lia].
  destruct (IH r) as [E|E]; [left; cbn [length skipn app]; rewrite E; reflexivity|right; cbn [length]; lia].
Qed.

Section Work.
Variable e : env.
Hypothesis EO : env_ok e.
Notation D := (dexd e).

(** ** Keys *)
Lemma market_read s k b m : history e s -> D s k = Some (DMarket m) -> LayoutSpec.holds s k b -> c_market b = Ok m.
Proof.
  intros H HM [HD HL]. pose proof HM as H1. apply dexd_owned in H1. destruct H1 as [_ H1]. rewrite HD in H1. destruct (view_padding _ _ H1) as (d & EB & M & CI & V); [discriminate..|].
  pose proof (view_inv d) as VI. rewrite V in VI. unfold c_market. rewrite CI. cbn [rbind]. rewrite EB, framed_len.
  assert (L8 : (8 <= length d)%nat) by (destruct VI as [(L & _)|(L & _)]; lia). replace (13 <=? length d + 12)%nat with true by (symmetry; apply Nat.leb_le; lia). cbn [check rbind]. cbv zeta. rewrite (num_off d 5 8) by lia. change (5 - 5)%nat with 0%nat.
  pose proof (flags_any _ (ws_flags _ (wi_str _ _ (reachable_inv e EO s H)) _ _ HM)) as FA.
  destruct VI as [(L & E & F)|(L & E & F)]; rewrite L.
  - assert (X : m_flags (dec_market d) = num d 0 8) by reflexivity. destruct F as [F|[F|[]]]; rewrite <- F in *; rewrite E, X; reflexivity.
  - assert (X : m_flags (dec_market2 d) = num d 0 8) by reflexivity. destruct F as [F|[F|[F|[F|[]]]]]; rewrite <- F in *; rewrite E, X; reflexivity.
Qed.
Theorem keys_read s k b m : history e s -> D s k = Some (DMarket m) -> usable m -> LayoutSpec.holds s k b ->
  exists p, e_pda e (m_nonce m) k = Some p /\ c_keys e k b = Ok (keys_of k m p).
Proof.
  intros H HM P HB. pose proof (reachable_inv e EO s H) as WI. unfold c_keys. rewrite (market_read s k b m H HM HB). cbn [rbind].
  destruct (wi_vlt _ _ WI) as [_ VCS _]. destruct (VCS _ _ HM) as (tc & VC). pose proof (vo_own _ _ _ _ _ _ _ VC) as PDA. exists (t_owner tc). split; [exact PDA|]. rewrite PDA. cbn [ok_or rbind].
  pose proof (ws_own _ (wi_str _ _ WI) _ _ HM) as OW. rewrite OW, Z.eqb_refl. reflexivity.
Qed.

(** ** One instruction *)
Section One.
Variables (s : store) (k : Z) (m : market) (A : astate) (L : list (Z * open_orders)).
Hypothesis (H : history e s) (G : no_overflow e s) (SN : seen e s k m A L) (P : usable m).
Let WI := reachable_inv e EO s H.
Lemma consume_ok prog oos p cw pw lim c : ~ needs_crank_authority m -> oos <> [] -> StronglySorted Z.lt oos ->
  let ci := c_consume prog oos (keys_of k m p) cw pw lim in
  exists s', process_bytes e c s (ci_data ci) (as_given ci) = Ok s' /\ consumes e s s' k m A L (served (Z.to_nat (lim mod 65536)) oos (a_evs A)).
Proof.
  intros NC NE SO. cbv zeta. rewrite consume_is. apply (consume_works e EO s k m A L WI SN P c prog oos cw pw (lim mod 65536) G NC NE SO). apply Z.mod_pos_bound. lia.
Qed.
Lemma consume_refused prog oos p cw pw lim c s' : needs_crank_authority m -> oos <> [] -> StronglySorted Z.lt oos ->
  let ci := c_consume prog oos (keys_of k m p) cw pw lim in process_bytes e c s (ci_data ci) (as_given ci) <> Ok s'.
Proof.
  intros NC NE SO ci HP. pose proof (Z.mod_pos_bound lim 65536 ltac:(lia)) as BN. assert (WF : wf_instr (IConsumeEvents (lim mod 65536))) by (cbn; unfold u16; lia).
  assert (CK : crank (IConsumeEvents (lim mod 65536)) (as_given ci) k (m_event_q m) oos (lim mod 65536)).
  { split; [exact NE|]. split; [lia|]. left. split; [reflexivity|]. exists cw, pw. unfold as_given, ci. rewrite consume_is. cbn [ci_accounts b_consume_events]. rewrite map_map, map_app, map_map. cbn [map rw am_key mk]. rewrite map_id. reflexivity. }
  unfold process_bytes in HP. change (ci_data ci) with (pack (IConsumeEvents (lim mod 65536))) in HP. rewrite (pack_unpack _ WF) in HP. cbn [ok_or rbind] in HP.
  destruct (crank_effect e EO s k m A L WI G SN P c _ _ _ oos _ s' CK SO HP) as (_ & AL & _). cbn [crank_allowed] in AL. unfold needs_crank_authority, permissioned in NC.
  pose proof (flags_any _ (ws_flags _ (wi_str _ _ WI) _ _ (sn_mkt _ _ _ _ _ _ SN))) as F. cbn [In] in F. destruct NC as [N1 N2].
  destruct F as [F|[F|[F|[F|[F|[F|[]]]]]]]; rewrite <- F in *; try discriminate N1; try discriminate N2; destruct AL as [AL|AL]; discriminate AL.
Qed.
Lemma consumes_none : consumes e s s k m A L [].
Proof.
  exists (a_evs A), L. split; [reflexivity|]. split; [destruct A; exact SN|]. split; [reflexivity|]. split; [intros x oo I; exists oo; split; [assumption|reflexivity]|]. intros y _. reflexivity.
Qed.
End One.
Lemma consumes_app s s1 s2 k m A L vs ws rest L1 : a_evs A = vs ++ rest -> (forall x, In x (map fst L1) <-> In x (map fst L)) ->
  (forall x oo, In (x, oo) L -> exists oo', In (x, oo') L1 /\ booked (filter (fun v => ev_owner v =? x) vs) oo oo') -> only s s1 (m_event_q m :: map ev_owner vs) ->
  consumes e s1 s2 k m (mkA (a_bids A) (a_asks A) rest) L1 ws -> consumes e s s2 k m A L (vs ++ ws).
Proof.
  intros E1 K1 B1 O1 (r2 & L2 & E2 & S2 & K2 & B2 & O2). cbn [a_evs MatchSteps.a_bids MatchSteps.a_asks] in *.
  exists r2, L2. split; [rewrite E1, E2, app_assoc; reflexivity|]. split; [exact S2|]. split; [intros x; rewrite K2; apply K1|]. split.
  - intros x oo I. destruct (B1 x oo I) as (o1 & I1 & X1). destruct (B2 x o1 I1) as (o2 & I2 & X2). exists o2. split; [exact I2|]. rewrite filter_app. eapply booked_app; eassumption.
  - eapply only_trans; [exact O1|exact O2| |]; intros y; rewrite map_app; cbn [In]; rewrite in_app_iff; tauto.
Qed.
(** Consuming keeps the guard and everything else a next step needs. *)
Lemma consume_good s k m A L prog oos p cw pw lim c s' vs : good e s -> seen e s k m A L -> usable m ->
  process_bytes e c s (ci_data (c_consume prog oos (keys_of k m p) cw pw lim)) (as_given (c_consume prog oos (keys_of k m p) cw pw lim)) = Ok s' ->
  consumes e s s' k m A L vs -> good e s'.
Proof.
  intros GD SN P HP (rest & L' & EV & SN' & KS & BK & ON). pose proof (Z.mod_pos_bound lim 65536 ltac:(lia)) as BN. assert (WF : wf_instr (IConsumeEvents (lim mod 65536))) by (cbn; unfold u16; lia).
  unfold process_bytes in HP. change (ci_data _) with (pack (IConsumeEvents (lim mod 65536))) in HP. rewrite (pack_unpack _ WF) in HP. cbn [ok_or rbind] in HP.
  assert (LG : legal e (as_given (c_consume prog oos (keys_of k m p) cw pw lim))).
  { intros a IA SA. exfalso. unfold as_given in IA. apply in_map_iff in IA. destruct IA as (x & <- & IX). cbn [mk_signer] in SA. cbn [c_consume ci_accounts] in IX. apply in_app_or in IX.
    destruct IX as [IX|IX]; [apply in_map_iff in IX; destruct IX as (y & <- & _); discriminate|]. cbn [In] in IX. destruct IX as [<-|[<-|[<-|[<-|[]]]]]; discriminate. }
  assert (H' : history e s') by (eapply history_next; [exact (gd_h _ _ GD)|exact (gd_g _ _ GD)|exact (gd_s _ _ GD)|exact LG|exact WF|exact HP]).
  destruct (seen_dex e _ _ _ _ _ SN) as (dq & _ & _ & do_). destruct (seen_dex e _ _ _ _ _ SN') as (dq' & _ & _ & do'). pose proof (sn_mkt _ _ _ _ _ _ SN) as HM.
  constructor; [exact H'| |eapply process_sized; [exact HP|exact (gd_s _ _ GD)]].
  apply (guard_next e s s' k m m (m_event_q m :: map ev_owner vs) P (gd_g _ _ GD) (wi_str _ _ (reachable_inv e EO s' H')) ON HM (sn_mkt _ _ _ _ _ _ SN') eq_refl eq_refl).
  - intros y [<-|IY]; [auto|]. apply in_map_iff in IY. destruct IY as (v & <- & IV). right. right. right. left. apply do'. apply KS. eapply event_owners; [exact EO|exact GD|exact SN|exact P|rewrite EV; apply in_or_app; left; exact IV].
  - intros q' HQ'. destruct (sn_evs _ _ _ _ _ _ SN) as (q & HQ & VS). destruct (sn_evs _ _ _ _ _ _ SN') as (q1 & HQ1 & VS'). assert (q1 = q') as -> by congruence. exists q. split; [assumption|].
    rewrite !(pending_views _ _ _ VS), !(pending_views _ _ _ VS'), EV. cbn [a_evs]. rewrite !zsum_app.
    assert (N : 0 <= zsum ev_paid_coin vs /\ 0 <= zsum ev_paid_pc vs).
    { split; apply zsum_nonneg; intros v IV; apply (paid_nonneg e EO s k m A L v GD SN P); rewrite EV; apply in_or_app; left; exact IV. }
    lia.
Qed.

(** ** Several of them *)
Lemma copies_run s k m c prog oos p cw pw lim n : wstruct (D s) -> oos <> [] ->
  let ci := c_consume prog oos (keys_of k m p) cw pw lim in
  all_run e c s (repeat ci (S n)) = process e c s (IConsumeEvents (Z.of_nat (S n) * (lim mod 65536))) (as_given ci).
Proof.
  intros W NE ci. pose proof (Z.mod_pos_bound lim 65536 ltac:(lia)) as BN. assert (WF : wf_instr (IConsumeEvents (lim mod 65536))) by (cbn; unfold u16; lia).
  assert (ONE : forall s0, process_bytes e c s0 (ci_data ci) (as_given ci) = process e c s0 (IConsumeEvents (lim mod 65536)) (as_given ci)).
  { intros s0. unfold process_bytes. change (ci_data ci) with (pack (IConsumeEvents (lim mod 65536))). rewrite (pack_unpack _ WF). reflexivity. }
  assert (APP : forall l s0 x, all_run e c s0 (l ++ [x]) = (s1 <- all_run e c s0 l ;; process_bytes e c s1 (ci_data x) (as_given x))).
  { induction l as [|y r IH]; intros s0 x; cbn [all_run app].
    - cbn [rbind]. destruct (process_bytes e c s0 (ci_data x) (as_given x)); reflexivity.
    - destruct (process_bytes e c s0 (ci_data y) (as_given y)); cbn [rbind]; [apply IH|reflexivity|reflexivity]. }
  induction n as [|n IH].
  - cbn [repeat all_run]. rewrite ONE. change (Z.of_nat 1) with 1. rewrite Z.mul_1_l. destruct (process _ _ _ _ _); reflexivity.
  - replace (repeat ci (S (S n))) with (repeat ci (S n) ++ [ci]) by (rewrite <- repeat_cons; reflexivity). rewrite APP, IH.
    replace (Z.of_nat (S (S n)) * (lim mod 65536)) with (Z.of_nat (S n) * (lim mod 65536) + lim mod 65536) by nia. rewrite <- (proj1 (consume_split e EO c s (Z.of_nat (S n) * (lim mod 65536)) (lim mod 65536) (as_given ci) W ltac:(nia) (proj1 BN))).
    destruct (process e c s _ _) as [s1| |]; cbn [rbind]; [apply ONE|reflexivity|reflexivity].
Qed.
Lemma copies_ok s k m A L prog oos p cw pw lim c n : history e s -> no_overflow e s -> seen e s k m A L -> usable m -> ~ needs_crank_authority m -> oos <> [] -> StronglySorted Z.lt oos ->
  let ci := c_consume prog oos (keys_of k m p) cw pw lim in
  exists s', all_run e c s (repeat ci (S n)) = Ok s' /\ consumes e s s' k m A L (served (Z.to_nat (Z.of_nat (S n) * (lim mod 65536))) oos (a_evs A)).
Proof.
  intros H G SN P NC NE SO ci. pose proof (reachable_inv e EO s H) as WI. pose proof (Z.mod_pos_bound lim 65536 ltac:(lia)) as BN. set (N := Z.of_nat (S n) * (lim mod 65536)).
  assert (HN : 0 <= N) by (unfold N; nia).
  assert (CK : crank (IConsumeEvents N) (as_given ci) k (m_event_q m) oos N).
  { split; [exact NE|]. split; [exact HN|]. left. split; [reflexivity|]. exists cw, pw. unfold as_given, ci. rewrite consume_is. cbn [ci_accounts b_consume_events]. rewrite map_map, map_app, map_map. cbn [map rw am_key mk]. rewrite map_id. reflexivity. }
  assert (AL : crank_allowed m (IConsumeEvents N) (as_given ci)).
  { cbn [crank_allowed]. unfold needs_crank_authority, permissioned in NC. pose proof (flags_any _ (ws_flags _ (wi_str _ _ WI) _ _ (sn_mkt _ _ _ _ _ _ SN))) as F. cbn [In] in F.
    destruct F as [F|[F|[F|[F|[F|[F|[]]]]]]]; rewrite <- F in *; try (left; reflexivity); try (right; reflexivity); exfalso; apply NC; split; reflexivity. }
  destruct (crank_succeeds e EO s k m A L WI G SN P c _ _ oos N CK AL) as (s' & HP). exists s'. split.
  - unfold ci. rewrite (copies_run s k m c prog oos p cw pw lim n (wi_str _ _ WI) NE). exact HP.
  - apply (crank_effect e EO s k m A L WI G SN P c _ _ _ oos N s' CK SO HP).
Qed.
Lemma copies_good k m prog oos p cw pw lim c n : usable m -> ~ needs_crank_authority m -> oos <> [] -> StronglySorted Z.lt oos -> forall s A L s', good e s -> seen e s k m A L ->
  all_run e c s (repeat (c_consume prog oos (keys_of k m p) cw pw lim) n) = Ok s' -> good e s'.
Proof.
  intros P NC NE SO. induction n as [|n IH]; intros s A L s' GD SN HR; cbn [repeat all_run] in HR; [injection HR as <-; exact GD|]. apply rbind_ok in HR. destruct HR as (s1 & H1 & HR).
  destruct (consume_ok s k m A L (gd_h _ _ GD) (gd_g _ _ GD) SN P prog oos p cw pw lim c NC NE SO) as (s1' & H1' & C1). assert (s1' = s1) as -> by congruence.
  pose proof C1 as C1'. destruct C1' as (rest & L1 & _ & SN1 & _). eapply IH; [|exact SN1|exact HR]. eapply consume_good; eassumption.
Qed.
End Work.
