(** Leaving a market: crank the queue, cancel, settle and close, and where that ends. *)
From Coq Require Import Permutation.
From Verif Require Import Base BaseProofs Fees ListSum Queue QueueProofs Codec CodecProofs Critbit CritbitSlab Market Matching Slots MatchSteps MatchRefine Ledger MatchSpec Core CoreInv CoreOrder CoreNew CoreCancel Instr InstrProofs
  Store Process StoreProofs World WorldInv WorldLoad WorldRun WorldConsume WorldMain WorldSpec WorldFacts WorldCancel WorldCrank WorldPay WorldAuth WorldRights WorldSizes ExitSpec.

(** ** Lists *)
Lemma booked_app vs1 vs2 a b c : booked vs1 a b -> booked vs2 b c -> booked (vs1 ++ vs2) a c.
Proof. revert a. induction vs1 as [|v r IH]; cbn [app booked]; intros a H1 H2; [subst; exact H2|]. destruct H1 as (o & E & H1). exists o. split; [exact E|eapply IH; eassumption]. Qed.
Lemma booked_sums vs : forall oo oo', booked vs oo oo' ->
  oo_coin_total oo' = oo_coin_total oo + zsum ev_coin vs /\ oo_pc_total oo' = oo_pc_total oo + zsum ev_pc vs /\ oo_rebates oo' = oo_rebates oo + zsum ev_rebate vs /\ oo_owner oo' = oo_owner oo.
Proof.
  induction vs as [|v r IH]; cbn [booked zsum]; intros oo oo' H; [subst; lia|]. destruct H as (o & [E (_ & _ & F) _] & H). apply IH in H. destruct H as (H1 & H2 & H3 & H4).
  rewrite H1, H2, H3, H4, F. destruct v as [[] [] ? ? ? ? ? ? ? ?|[] [] ? ? ? ? ? ?]; unfold changed_by in E; cbn [ev_coin ev_pc ev_rebate]; lia.
Qed.
Lemma own_app x a b : own_events x (a ++ b) = own_events x a ++ own_events x b.
Proof. apply filter_app. Qed.
Lemma drop1 l bk : drop [l] bk = filter (fun y => negb (l_key l =? l_key y)) bk.
Proof. apply filter_ext. intros y. cbn [existsb]. rewrite orb_false_r. reflexivity. Qed.
Lemma others_drop x l bk : l_owner l = x -> (forall y, In y bk -> l_key y = l_key l -> l_owner y = x) -> others x (drop [l] bk) = others x bk.
Proof.
  intros O I. rewrite drop1. unfold others. induction bk as [|y r IH]; [reflexivity|]. cbn [filter]. destruct (Z.eqb_spec (l_key l) (l_key y)) as [E|N]; cbn [negb].
  - rewrite (I y) by (cbn [In]; auto). rewrite Z.eqb_refl. cbn [negb]. apply IH. intros z IZ. apply I. right. exact IZ.
  - cbn [filter]. rewrite IH by (intros z IZ; apply I; right; exact IZ). reflexivity.
Qed.
Lemma others_none x bk : own_orders x bk = [] -> others x bk = bk.
Proof.
  unfold own_orders, others. induction bk as [|y r IH]; [reflexivity|]. cbn [filter]. destruct (l_owner y =? x); [discriminate|]. cbn [negb]. intros H. rewrite IH by exact H. reflexivity.
Qed.
Lemma own_drop x l bk : In l bk -> l_owner l = x -> (forall y, In y bk -> l_key y = l_key l -> y = l) -> NoDup bk -> length (own_orders x bk) = S (length (own_orders x (drop [l] bk))).
Proof.
  intros IL O I ND. rewrite drop1. unfold own_orders. revert IL. induction bk as [|y r IH]; [intros []|]. intros IL. cbn [filter]. inversion ND as [|? ? NI ND']; subst.
  destruct (Z.eqb_spec (l_key l) (l_key y)) as [E|N]; cbn [negb].
  - assert (y = l) by (apply I; [left; reflexivity|congruence]). subst y. rewrite Z.eqb_refl. cbn [length]. f_equal. clear IH IL. assert (G : forall z, In z r -> l_key l =? l_key z = false).
    { intros z IZ. destruct (Z.eqb_spec (l_key l) (l_key z)) as [E'|]; [|reflexivity]. exfalso. apply NI. rewrite <- (I z); [assumption|right; assumption|congruence]. }
    clear I ND NI ND' E. induction r as [|z r IH]; [reflexivity|]. cbn [filter]. rewrite (G z (or_introl eq_refl)). cbn [negb filter]. destruct (l_owner z =? l_owner l); cbn [length]; rewrite IH by (intros; apply G; right; assumption); reflexivity.
  - destruct IL as [->|IL]; [congruence|]. cbn [filter]. destruct (l_owner y =? l_owner l); cbn [length]; rewrite IH by (first [assumption | intros; apply I; [right|]; assumption]); reflexivity.
Qed.
Lemma run_app e c who n1 : forall s1 s2 n2 s3, run e c who n1 s1 s2 -> run e c who n2 s2 s3 -> run e c who (n1 + n2) s1 s3.
Proof.
  induction n1 as [|n IH]; intros * H1 H2; inversion H1; subst; [exact H2|]. cbn [Nat.add]. eapply run_tx; try eassumption. eapply IH; eassumption.
Qed.

Lemma run_weaken e c (who who' : Z -> Prop) n : (forall z, who z -> who' z) -> forall s s', run e c who n s s' -> run e c who' n s s'.
Proof. intros W. induction 1 as [s|s i ms s1 n s' WF SG PR R IH]; [apply run_nil|]. eapply run_tx; [exact WF| |exact PR|exact IH]. auto. Qed.

Section Exit.
Variable e : env.
Hypothesis EO : env_ok e.
Variable c : clock.
Notation D := (dexd e).
Record good (s : store) : Prop := mkGood { gd_h : history e s; gd_g : no_overflow e s; gd_s : sized s }.

Lemma dex_no_token s y d : D s y = Some d -> token_at s y = None.
Proof. intros H. apply dexd_owned in H. destruct H as [H _]. unfold token_at. rewrite H. destruct (Z.eqb_spec (e_prog e) spl_id) as [E|]; [destruct (eo_spl _ EO E)|reflexivity]. Qed.
Lemma only_quiet s s' ys : only s s' ys -> (forall y, In y ys -> (exists d, D s y = Some d) /\ (exists d, D s' y = Some d)) -> forall v, token_at s' v = token_at s v.
Proof.
  intros O I v. destruct (in_dec Z.eq_dec v ys) as [IN|NI].
  - destruct (I v IN) as [(d & H) (d' & H')]. rewrite (dex_no_token _ _ _ H), (dex_no_token _ _ _ H'). reflexivity.
  - unfold token_at. rewrite (O v NI). reflexivity.
Qed.
Lemma only_D s s' ys y : only s s' ys -> ~ In y ys -> D s' y = D s y.
Proof. intros O N. unfold dexd. rewrite (O y N). reflexivity. Qed.
(** The guard survives when one market's promises do not grow. *)
Lemma guard_next s s' k m m' ys : usable m -> no_overflow e s -> wstruct (D s') -> only s s' ys -> D s k = Some (DMarket m) -> D s' k = Some (DMarket m') ->
  m_event_q m' = m_event_q m -> m_req_q m' = m_req_q m ->
  (forall y, In y ys -> y = k \/ y = m_event_q m \/ (exists sd sl, D s' y = Some (DSlab sd sl)) \/ (exists oo, D s' y = Some (DOO oo)) \/ D s' y = D s y) ->
  (forall q', D s' (m_event_q m) = Some (DEventQ q') -> exists q, D s (m_event_q m) = Some (DEventQ q) /\
     m_coin_deposits m' + pending_paid ev_paid_coin q' <= m_coin_deposits m + pending_paid ev_paid_coin q /\
     m_pc_deposits m' + pending_paid ev_paid_pc q' <= m_pc_deposits m + pending_paid ev_paid_pc q) ->
  no_overflow e s'.
Proof.
  intros P G W O HM HM' EQ RQ YS PD k2 m2 H2 P2.
  assert (SAME : forall y d, D s' y = Some d -> y <> k -> y <> m_event_q m -> (forall sd sl, d <> DSlab sd sl) -> (forall oo, d <> DOO oo) -> D s y = Some d).
  { intros y d HY N1 N2 N3 N4. destruct (in_dec Z.eq_dec y ys) as [IN|NI]; [|rewrite <- (only_D _ _ _ _ O NI); exact HY].
    destruct (YS y IN) as [X|[X|[(sd & sl & X)|[(oo & X)|X]]]]; try contradiction; congruence. }
  destruct (ws_evq _ W _ _ HM') as (q0 & HQ0). rewrite EQ in HQ0.
  destruct (Z.eq_dec k2 k) as [->|N].
  - assert (m2 = m') as -> by congruence. destruct (G k m HM P) as [G1 G2]. split.
    + rewrite EQ. intros q' HQ'. destruct (PD q' HQ') as (q & HQ & Q1 & Q2). specialize (G1 q HQ). lia.
    + rewrite RQ. intros cc seq HR. apply (G2 cc). apply (SAME _ _ HR); try discriminate; intros X; rewrite X in HR; congruence.
  - assert (H2' : D s k2 = Some (DMarket m2)) by (apply (SAME _ _ H2); try assumption; try discriminate; intros X; rewrite X in H2; congruence).
    destruct (ws_inj _ W _ _ _ _ H2 HM' N) as (_ & _ & _ & NE). rewrite EQ in NE. destruct (G k2 m2 H2' P2) as [G1 G2]. split.
    + intros q' HQ'. apply G1. apply (SAME _ _ HQ'); try assumption; try discriminate. intros X; rewrite X in HQ'; congruence.
    + intros cc seq HR. apply (G2 cc). apply (SAME _ _ HR); try discriminate; intros X; rewrite X in HR; congruence.
Qed.
Lemma pending_views f q : forall vs, Forall2 (fun ev v => event_as_view ev = Ok v) (q_list q) vs -> pending_paid f q = zsum f vs.
Proof. unfold pending_paid. intros vs H. induction H as [|ev v l r E _ IH]; [reflexivity|]. cbn [zsum]. rewrite E, IH. reflexivity. Qed.
Lemma process_good s i ms s' : good s -> legal e ms -> wf_instr i -> process e c s i ms = Ok s' -> no_overflow e s' -> good s'.
Proof. intros [H G Z] LG WF E G'. constructor; [eapply history_next; eassumption|assumption|eapply process_sized; eassumption]. Qed.
Lemma paid_nonneg s k m A L v : good s -> seen e s k m A L -> usable m -> In v (a_evs A) -> 0 <= ev_paid_coin v /\ 0 <= ev_paid_pc v.
Proof.
  intros GD SN P IV. destruct (one_inv e EO s k m A L (gd_h _ GD) SN P) as (seq & o & _ & _ & _ & AI). pose proof (evs_each _ _ _ _ AI v IV) as X.
  destruct v as [[] [] ? ? ? ? ? ? ? ?|[] [] ? ? ? ? ? ?]; cbn in *; lia.
Qed.
Lemma seen_struct s k m A L : good s -> seen e s k m A L -> wstruct (D s).
Proof. intros GD _. exact (wi_str _ _ (reachable_inv e EO s (gd_h _ GD))). Qed.
Lemma seen_dex s k m A L : seen e s k m A L -> (exists d, D s (m_event_q m) = Some d) /\ (exists d, D s (m_bids m) = Some d) /\ (exists d, D s (m_asks m) = Some d) /\ (forall x, In x (map fst L) -> exists oo, D s x = Some (DOO oo)).
Proof.
  intros SN. destruct (sn_evs _ _ _ _ _ _ SN) as (q & HQ & _). destruct (sn_bids _ _ _ _ _ _ SN) as (b & HB & _). destruct (sn_asks _ _ _ _ _ _ SN) as (a & HA & _).
  split; [eauto|]. split; [eauto|]. split; [eauto|]. intros x IN. apply in_map_iff in IN. destruct IN as ([y oo] & <- & IN). apply (sn_oos _ _ _ _ _ _ SN) in IN. destruct IN as [IN _]. eauto.
Qed.
Lemma event_owners s k m A L v : good s -> seen e s k m A L -> usable m -> In v (a_evs A) -> In (ev_owner v) (map fst L).
Proof. intros GD SN P IV. destruct (one_inv e EO s k m A L (gd_h _ GD) SN P) as (seq & o & _ & _ & _ & AI). exact (proj1 (ai_evown _ _ _ _ AI v IV)). Qed.

Section Crank.
Variables (k : Z) (m : market).
Hypothesis (P : usable m) (CA : needs_crank_authority m -> ~ is_pda e (m_crank_auth m)).
Notation who := (cranker m).
Lemma crank_legal ms : (forall a, In a ms -> mk_signer a = true -> who (mk a)) -> legal e ms.
Proof. intros H a IA SA. destruct (H a IA SA) as [N ->]; auto. Qed.

(** ** One event *)
Lemma one_event_by s A L v r : good s -> seen e s k m A L -> a_evs A = v :: r ->
  exists s' L', run e c who 1 s s' /\ good s' /\ seen e s' k m (mkA (a_bids A) (a_asks A) r) L' /\ kept s s' /\
    (forall x, In x (map fst L') <-> In x (map fst L)) /\
    (forall x oo, In (x, oo) L -> exists oo', In (x, oo') L' /\ booked (own_events x [v]) oo oo') /\ only s s' [m_event_q m; ev_owner v] /\
    (forall z, token_at s' z = token_at s z).
Proof.
  intros GD SN EA. pose proof (reachable_inv e EO s (gd_h _ GD)) as WI. pose proof (sn_mkt _ _ _ _ _ _ SN) as HM. pose proof (ws_flags _ (wi_str _ _ WI) _ _ HM) as FL.
  assert (X : exists i ms, crank i ms k (m_event_q m) [ev_owner v] 1 /\ crank_allowed m i ms /\ wf_instr i /\ (forall a, In a ms -> mk_signer a = true -> who (mk a)) /\ (forall ix, i <> IInitMarket ix) /\ i <> ICloseOO).
  { destruct (has_flag (m_flags m) AF_Permissioned && has_flag (m_flags m) AF_CrankAuth) eqn:B.
    - apply andb_prop in B. destruct B as [B1 B2]. exists (IConsumePermissioned 1), ([mkMeta (ev_owner v) false; mkMeta k false; mkMeta (m_event_q m) false] ++ [mkMeta (m_crank_auth m) true]).
      split; [split; [discriminate|split; [lia|right; split; [reflexivity|exists (m_crank_auth m); reflexivity]]]|]. split; [cbn [crank_allowed]; eauto|]. split; [cbn; unfold u16; lia|].
      split; [|split; discriminate]. intros a IA SA. cbn [app In] in IA. destruct IA as [<-|[<-|[<-|[<-|[]]]]]; try discriminate. cbn [mk].
      assert (CE : crank_authority m = Some (m_crank_auth m)) by (unfold crank_authority; rewrite B1, B2; reflexivity). exact (crank_auth_some m _ FL CE).
    - exists (IConsumeEvents 1), [mkMeta (ev_owner v) false; mkMeta k false; mkMeta (m_event_q m) false; mkMeta 0 false; mkMeta 0 false].
      split; [split; [discriminate|split; [lia|left; split; [reflexivity|exists 0, 0; reflexivity]]]|]. split; [cbn [crank_allowed]; apply andb_false_iff in B; exact B|]. split; [cbn; unfold u16; lia|].
      split; [|split; discriminate]. intros a IA SA. cbn [In] in IA. destruct IA as [<-|[<-|[<-|[<-|[<-|[]]]]]]; discriminate. }
  destruct X as (i & ms & CR & AL & WF & SG & NI & NC). destruct (crank_head e EO s k m A L WI (gd_g _ GD) SN P c i ms v r EA CR AL) as (s' & PR & rest & L' & EV & SN' & KS & BK & ON).
  rewrite EA in EV. cbn [app] in EV. injection EV as <-. cbn [map] in ON.
  assert (H' : history e s') by (eapply history_next; [exact (gd_h _ GD)|exact (gd_g _ GD)|exact (gd_s _ GD)|apply crank_legal; exact SG|exact WF|exact PR]).
  assert (OW : In (ev_owner v) (map fst L)) by (eapply event_owners; [exact GD|exact SN|exact P|rewrite EA; left; reflexivity]).
  destruct (seen_dex _ _ _ _ _ SN) as (dq & _ & _ & do_). destruct (seen_dex _ _ _ _ _ SN') as (dq' & _ & _ & do').
  assert (G' : no_overflow e s').
  { apply (guard_next s s' k m m [m_event_q m; ev_owner v] P (gd_g _ GD) (wi_str _ _ (reachable_inv e EO s' H')) ON HM (sn_mkt _ _ _ _ _ _ SN') eq_refl eq_refl).
    - intros y [<-|[<-|[]]]; [auto|]. right. right. right. left. apply do'. apply KS. exact OW.
    - intros q' HQ'. destruct (sn_evs _ _ _ _ _ _ SN) as (q & HQ & VS). destruct (sn_evs _ _ _ _ _ _ SN') as (q1 & HQ1 & VS'). assert (q1 = q') as -> by congruence. exists q. split; [assumption|].
      rewrite !(pending_views _ _ _ VS), !(pending_views _ _ _ VS'), EA. cbn [a_evs zsum]. destruct (paid_nonneg s k m A L v GD SN P) as [P1 P2]; [rewrite EA; left; reflexivity|]. lia. }
  exists s', L'. split; [eapply run_tx; [exact WF|exact SG|exact PR|apply run_nil]|]. split; [constructor; [assumption|assumption|eapply process_sized; [exact PR|exact (gd_s _ GD)]]|].
  split; [exact SN'|]. split; [eapply process_kept; [exact PR|exact NI|exact NC]|]. split; [exact KS|]. split; [exact BK|]. split; [exact ON|].
  apply (only_quiet _ _ _ ON). intros y [<-|[<-|[]]]; [split; assumption|]. destruct (do_ _ OW) as (d1 & E1). destruct (do' _ (proj2 (KS _) OW)) as (d2 & E2). eauto.
Qed.
(** ** The whole queue *)
Lemma all_events_by evs : forall s A L, good s -> seen e s k m A L -> a_evs A = evs ->
  exists s' L', run e c who (length evs) s s' /\ good s' /\ seen e s' k m (mkA (a_bids A) (a_asks A) []) L' /\ kept s s' /\
    (forall x, In x (map fst L') <-> In x (map fst L)) /\
    (forall x oo, In (x, oo) L -> exists oo', In (x, oo') L' /\ booked (own_events x evs) oo oo') /\ only s s' (m_event_q m :: map ev_owner evs) /\
    (forall z, token_at s' z = token_at s z).
Proof.
  induction evs as [|v r IH]; intros s A L GD SN EA.
  - exists s, L. split; [apply run_nil|]. split; [assumption|]. split; [rewrite <- EA; destruct A; exact SN|]. split; [apply kept_refl|]. split; [reflexivity|].
    split; [intros x oo IN; exists oo; split; [assumption|reflexivity]|]. split; [intros y _; reflexivity|reflexivity].
  - destruct (one_event_by s A L v r GD SN EA) as (s1 & L1 & R1 & G1 & S1 & K1 & KS1 & B1 & O1 & T1). destruct (IH s1 _ L1 G1 S1 eq_refl) as (s2 & L2 & R2 & G2 & S2 & K2 & KS2 & B2 & O2 & T2).
    exists s2, L2. split; [exact (run_app e c who 1 _ _ _ _ R1 R2)|]. split; [assumption|]. split; [exact S2|]. split; [eapply kept_trans; eassumption|].
    split; [intros x; rewrite KS2; apply KS1|]. split; [|split].
    + intros x oo IN. destruct (B1 x oo IN) as (o1 & I1 & E1). destruct (B2 x o1 I1) as (o2 & I2 & E2). exists o2. split; [assumption|]. change (v :: r) with ([v] ++ r). rewrite own_app. eapply booked_app; eassumption.
    + eapply only_trans; [exact O1|exact O2| |]; cbn [map]; intros y; cbn [In]; tauto.
    + intros z. rewrite T2. apply T1.
Qed.
End Crank.

Section Owner.
Variables (k : Z) (m : market) (w : Z).
Hypothesis (P : usable m) (CA : needs_crank_authority m -> ~ is_pda e (m_crank_auth m)) (NW : ~ is_pda e w).
Notation who := (leaver m w).
Lemma who_legal ms : (forall a, In a ms -> mk_signer a = true -> who (mk a)) -> legal e ms.
Proof. intros H a IA SA. destruct (H a IA SA) as [->|[N ->]]; auto. Qed.

(** ** Events *)
Lemma one_event s A L v r : good s -> seen e s k m A L -> a_evs A = v :: r ->
  exists s' L', run e c who 1 s s' /\ good s' /\ seen e s' k m (mkA (a_bids A) (a_asks A) r) L' /\ kept s s' /\
    (forall x, In x (map fst L') <-> In x (map fst L)) /\
    (forall x oo, In (x, oo) L -> exists oo', In (x, oo') L' /\ booked (own_events x [v]) oo oo') /\ only s s' [m_event_q m; ev_owner v] /\
    (forall z, token_at s' z = token_at s z).
Proof.
  intros GD SN EA. destruct (one_event_by k m P CA s A L v r GD SN EA) as (s' & L' & R & X). exists s', L'. split; [|exact X]. eapply run_weaken; [|exact R]. intros z Hz. right. exact Hz.
Qed.
Lemma all_events evs : forall s A L, good s -> seen e s k m A L -> a_evs A = evs ->
  exists s' L', run e c who (length evs) s s' /\ good s' /\ seen e s' k m (mkA (a_bids A) (a_asks A) []) L' /\ kept s s' /\
    (forall x, In x (map fst L') <-> In x (map fst L)) /\
    (forall x oo, In (x, oo) L -> exists oo', In (x, oo') L' /\ booked (own_events x evs) oo oo') /\ only s s' (m_event_q m :: map ev_owner evs) /\
    (forall z, token_at s' z = token_at s z).
Proof.
  intros s A L GD SN EA. destruct (all_events_by k m P CA evs s A L GD SN EA) as (s' & L' & R & X). exists s', L'. split; [|exact X]. eapply run_weaken; [|exact R]. intros z Hz. right. exact Hz.
Qed.
(** ** One order: cancelled, and its final event consumed *)
Lemma leaf_u128 s A L sd l : seen e s k m A L -> In l (book_of A sd) -> good s -> u128 (l_key l).
Proof.
  intros SN IL GD. destruct (one_inv e EO s k m A L (gd_h _ GD) SN P) as (seq & o & _ & C & _). pose proof (ci_rep _ _ _ _ C) as RP. destruct sd; cbn [book_of] in IL.
  - rewrite <- (r_bids _ _ RP) in IL. exact (book_u128 _ (r_bids_ok _ _ RP) _ IL).
  - rewrite <- (r_asks _ _ RP) in IL. exact (book_u128 _ (r_asks_ok _ _ RP) _ IL).
Qed.
Lemma one_order s A L x oo sd l : good s -> seen e s k m A L -> a_evs A = [] -> In (x, oo) L -> oo_owner oo = w -> In l (book_of A sd) -> l_owner l = x ->
  exists s' L' oo' A', run e c who 2 s s' /\ good s' /\ seen e s' k m A' L' /\ a_evs A' = [] /\ kept s s' /\
    book_of A' sd = drop [l] (book_of A sd) /\ book_of A' (other sd) = book_of A (other sd) /\
    (forall y, In y (map fst L') <-> In y (map fst L)) /\ (forall y oy, y <> x -> In (y, oy) L -> In (y, oy) L') /\
    In (x, oo') L' /\ oo_owner oo' = w /\ oo_coin_total oo' = oo_coin_total oo /\ oo_pc_total oo' = oo_pc_total oo /\ oo_rebates oo' = oo_rebates oo /\
    only s s' [m_bids m; m_asks m; m_event_q m; x] /\ (forall z, token_at s' z = token_at s z).
Proof.
  intros GD SN EA IN OW IL OL. pose proof (reachable_inv e EO s (gd_h _ GD)) as WI. pose proof (sn_mkt _ _ _ _ _ _ SN) as HM.
  assert (PL : places e s m 1).
  { destruct (sn_evs _ _ _ _ _ _ SN) as (q & HQ & VS). rewrite EA in VS. inversion VS as [E0|]. exists q. split; [assumption|]. pose proof (history_roomy e s (gd_h _ GD) _ _ HQ). rewrite <- E0. change (zlen (@nil event)) with 0. lia. }
  destruct (cancel_succeeds e s k m A L WI SN P c sd l x oo [] IN IL OL PL) as (s1 & PR). rewrite OW in PR.
  destruct (cancel_v2_effect e EO s k m A L WI SN P c sd (l_key l) _ s1 PR eq_refl) as (x0 & o0 & l0 & K3 & IN0 & _ & IL0 & KL & OL0 & A1 & oo1 & WD & SN1 & ON1).
  injection K3 as <-. assert (o0 = oo) as -> by (eapply nodup_fst_inj; [exact (sn_once _ _ _ _ _ _ SN)|exact IN0|exact IN]).
  destruct (one_inv e EO s k m A L (gd_h _ GD) SN P) as (seq & o & _ & C & _ & AI).
  assert (l0 = l) as ->. { eapply sorted_key_inj; [|exact IL0|exact IL|exact KL]. eapply sorted_nodup_keys. exact (cinv_sorted _ _ _ _ C sd). }
  assert (WF : wf_instr (ICancelV2 sd (l_key l))) by (cbn [wf_instr]; exact (leaf_u128 s A L sd l SN IL GD)).
  assert (SG : forall a, In a [mkMeta k false; mkMeta (m_bids m) false; mkMeta (m_asks m) false; mkMeta x false; mkMeta w true; mkMeta (m_event_q m) false] -> mk_signer a = true -> who (mk a)).
  { intros a IA SA. cbn [In] in IA. destruct IA as [<-|[<-|[<-|[<-|[<-|[<-|[]]]]]]]; try discriminate. left. reflexivity. }
  assert (H1 : history e s1) by (eapply history_next; [exact (gd_h _ GD)|exact (gd_g _ GD)|exact (gd_s _ GD)|apply who_legal; exact SG|exact WF|exact PR]).
  assert (EV1 : a_evs A1 = [out_of m sd l]).
  { destruct (wd_evs _ _ _ _ _ _ _ _ WD) as (E & EE & PM). rewrite EE, EA. cbn [app]. destruct sd; cbn [map app] in PM; symmetry in PM; apply Permutation_length_1_inv in PM; exact PM. }
  destruct (seen_dex _ _ _ _ _ SN) as (dq & db & da & do_). destruct (seen_dex _ _ _ _ _ SN1) as (dq1 & db1 & da1 & do1).
  assert (IX : In x (map fst L)) by (apply in_map_iff; exists (x, oo); auto).
  assert (G1 : no_overflow e s1).
  { apply (guard_next s s1 k m m _ P (gd_g _ GD) (wi_str _ _ (reachable_inv e EO s1 H1)) ON1 HM (sn_mkt _ _ _ _ _ _ SN1) eq_refl eq_refl).
    - destruct (sn_bids _ _ _ _ _ _ SN1) as (sb & HB & _). destruct (sn_asks _ _ _ _ _ _ SN1) as (sa & HA & _). intros y [<-|[<-|[<-|[<-|[]]]]]; [right; right; left; eauto|right; right; left; eauto|auto|].
      right. right. right. left. apply do1. rewrite put_acct_fst. exact IX.
    - intros q' HQ'. destruct (sn_evs _ _ _ _ _ _ SN) as (q & HQ & VS). destruct (sn_evs _ _ _ _ _ _ SN1) as (q1 & HQ1 & VS'). assert (q1 = q') as -> by congruence. exists q. split; [assumption|].
      rewrite !(pending_views _ _ _ VS), !(pending_views _ _ _ VS'), EA, EV1. cbn [zsum]. unfold out_of. cbn [ev_paid_coin ev_paid_pc]. lia. }
  assert (GD1 : good s1) by (constructor; [assumption|assumption|eapply process_sized; [exact PR|exact (gd_s _ GD)]]).
  destruct (one_event s1 A1 _ _ _ GD1 SN1 EV1) as (s2 & L2 & R2 & G2 & S2 & K2 & KS2 & B2 & O2 & T2). change (ev_owner (out_of m sd l)) with (l_owner l) in O2. rewrite OL in O2.
  assert (I1 : In (x, oo1) (put_acct L x oo1)) by (apply put_acct_In; left; auto).
  destruct (B2 x oo1 I1) as (oo2 & I2 & BK2). assert (OE : own_events x [out_of m sd l] = [out_of m sd l]) by (unfold own_events; cbn [filter]; change (ev_owner (out_of m sd l)) with (l_owner l); rewrite OL, Z.eqb_refl; reflexivity).
  rewrite OE in BK2. destruct (booked_sums _ _ _ BK2) as (t1 & t2 & t3 & t4). destruct (wd_bal _ _ _ _ _ _ _ _ WD) as (u1 & u2 & u3 & u4 & u5). destruct (wd_slots _ _ _ _ _ _ _ _ WD) as (_ & _ & u6 & _).
  unfold out_of in t1, t2, t3. cbn [zsum ev_coin ev_pc ev_rebate] in t1, t2, t3.
  exists s2, L2, oo2, (mkA (a_bids A1) (a_asks A1) []).
  split; [eapply run_tx; [exact WF|exact SG|exact PR|exact R2]|]. split; [assumption|]. split; [exact S2|]. split; [reflexivity|].
  split; [eapply kept_trans; [eapply process_kept; [exact PR|discriminate|discriminate]|exact K2]|].
  split; [destruct sd; cbn [book_of a_bids a_asks]; [exact (wd_bids _ _ _ _ _ _ _ _ WD)|exact (wd_asks _ _ _ _ _ _ _ _ WD)]|].
  split; [destruct sd; cbn [book_of other a_bids a_asks]; [rewrite (wd_asks _ _ _ _ _ _ _ _ WD)|rewrite (wd_bids _ _ _ _ _ _ _ _ WD)]; apply drop_nil|].
  split; [intros y; rewrite KS2, put_acct_fst; reflexivity|]. split.
  { intros y oy N IY. destruct (B2 y oy) as (oy2 & IY2 & BY); [apply put_acct_In; right; auto|]. unfold own_events in BY. cbn [filter] in BY. change (ev_owner (out_of m sd l)) with (l_owner l) in BY.
    replace (l_owner l =? y) with false in BY by lia. cbn [booked] in BY. subst oy2. exact IY2. }
  split; [exact I2|]. split; [congruence|]. split; [lia|]. split; [lia|]. split; [lia|]. split.
  - eapply only_trans; [exact ON1|exact O2| |]; intros y; cbn [In]; tauto.
  - intros z. rewrite T2. apply (only_quiet _ _ _ ON1). destruct (do_ _ IX) as (d1 & E1). destruct (do1 x ltac:(rewrite put_acct_fst; exact IX)) as (d2 & E2).
    intros y [<-|[<-|[<-|[<-|[]]]]]; split; eauto.
Qed.
(** ** All orders *)
Lemma all_orders n : forall s A L x oo, own_count x A = n -> good s -> seen e s k m A L -> a_evs A = [] -> In (x, oo) L -> oo_owner oo = w ->
  exists s' L' oo', run e c who (2 * n) s s' /\ good s' /\ seen e s' k m (mkA (others x (a_bids A)) (others x (a_asks A)) []) L' /\ kept s s' /\
    (forall y, In y (map fst L') <-> In y (map fst L)) /\ (forall y oy, y <> x -> In (y, oy) L -> In (y, oy) L') /\
    In (x, oo') L' /\ oo_owner oo' = w /\ oo_coin_total oo' = oo_coin_total oo /\ oo_pc_total oo' = oo_pc_total oo /\ oo_rebates oo' = oo_rebates oo /\
    only s s' [m_bids m; m_asks m; m_event_q m; x] /\ (forall z, token_at s' z = token_at s z).
Proof.
  induction n as [|n IH]; intros s A L x oo EN GD SN EA IN OW.
  - exists s, L, oo. unfold own_count in EN. split; [apply run_nil|]. split; [assumption|]. split.
    { rewrite !others_none by (apply length_zero_iff_nil; lia). rewrite <- EA. destruct A; exact SN. }
    split; [apply kept_refl|]. split; [reflexivity|]. split; [auto|]. do 5 (split; [auto|]). split; [intros y _; reflexivity|reflexivity].
  - assert (X : exists sd l, In l (book_of A sd) /\ l_owner l = x).
    { unfold own_count in EN. destruct (own_orders x (a_bids A)) as [|l r] eqn:EB.
      - destruct (own_orders x (a_asks A)) as [|l r] eqn:EC; [discriminate|]. exists Ask, l. cbn [book_of]. assert (I : In l (own_orders x (a_asks A))) by (rewrite EC; left; reflexivity). apply filter_In in I. destruct I. split; [assumption|lia].
      - exists Bid, l. cbn [book_of]. assert (I : In l (own_orders x (a_bids A))) by (rewrite EB; left; reflexivity). apply filter_In in I. destruct I. split; [assumption|lia]. }
    destruct X as (sd & l & IL & OL). destruct (one_inv e EO s k m A L (gd_h _ GD) SN P) as (seq & o & _ & C & _ & AI). pose proof (cinv_sorted _ _ _ _ C sd) as SO.
    assert (KI : forall y, In y (book_of A sd) -> l_key y = l_key l -> y = l) by (intros y IY E; eapply sorted_key_inj; [eapply sorted_nodup_keys; exact SO|exact IY|exact IL|exact E]).
    destruct (one_order s A L x oo sd l GD SN EA IN OW IL OL) as (s1 & L1 & oo1 & A1 & R1 & G1 & S1 & EA1 & K1 & BS & BO & KS1 & OT1 & IN1 & OW1 & c1 & p1 & r1 & O1 & T1).
    assert (EN1 : own_count x A1 = n).
    { pose proof (own_drop x l _ IL OL KI (sorted_nodup _ SO)) as D1. rewrite <- BS in D1. unfold own_count in *. destruct sd; cbn [book_of other] in *; rewrite BO in *; lia. }
    destruct (IH s1 A1 L1 x oo1 EN1 G1 S1 EA1 IN1 OW1) as (s2 & L2 & oo2 & R2 & G2 & S2 & K2 & KS2 & OT2 & IN2 & OW2 & c2 & p2 & r2 & O2 & T2).
    exists s2, L2, oo2. replace (2 * S n)%nat with (2 + 2 * n)%nat by lia. split; [eapply run_app; eassumption|]. split; [assumption|]. split.
    { assert (E : others x (book_of A1 sd) = others x (book_of A sd)) by (rewrite BS; apply others_drop; [assumption|intros y IY E; rewrite (KI y IY E); assumption]).
      destruct sd; cbn [book_of other] in *; rewrite <- E, <- BO; exact S2. }
    split; [eapply kept_trans; eassumption|]. split; [intros y; rewrite KS2; apply KS1|]. split; [auto|]. split; [assumption|]. split; [assumption|]. split; [congruence|]. split; [congruence|]. split; [congruence|].
    split; [eapply only_trans; [exact O1|exact O2| |]; intros y; cbn [In]; tauto|]. intros z. rewrite T2. apply T1.
Qed.
End Owner.

Lemma wallet_same s s' v mint room : kept s s' -> (forall z, token_at s' z = token_at s z) -> wallet s v mint room -> wallet s' v mint room.
Proof. intros K T (t & H & LN & R). exists t. rewrite T, (kp_len _ _ K). auto. Qed.
Lemma own_of_others x bk : own_orders x (others x bk) = [].
Proof. unfold own_orders, others. induction bk as [|y r IH]; [reflexivity|]. cbn [filter]. destruct (l_owner y =? x) eqn:E; cbn [negb filter]; [exact IH|rewrite E; exact IH]. Qed.
Lemma In_others x bk l : In l (others x bk) -> l_owner l <> x.
Proof. unfold others. intros H. apply filter_In in H. lia. Qed.
Lemma put_two L x a b : put_acct (put_acct L x a) x b = put_acct L x b.
Proof. unfold put_acct. rewrite map_map. apply map_ext. intros [y oy]. cbn [fst]. destruct (Z.eqb_spec y x); cbn [fst]; [rewrite Z.eqb_refl; reflexivity|]. destruct (Z.eqb_spec y x); [contradiction|reflexivity]. Qed.
(** ** Closing, for the rest of the market *)
Lemma close_seen s k m A L ms s' x : wstruct (D s) -> seen e s k m A L -> proc_close e s ms = Ok s' -> key_at ms 0 = Some x ->
  seen e s' k m A (filter (fun a => negb (fst a =? x)) L) /\ (forall z, token_at s' z = token_at s z).
Proof.
  intros W SN H KX. destruct (close_ran e s ms s' W H) as (k1 & x1 & w & dest & m1 & oo & oo' & sum & KM & _ & _ & LV & _ & CC & _ & _ & E). rewrite (key_map _ _ _ KM) in KX. injection KX as ->.
  destruct LV as (HX & FX & MX).
  assert (DD : forall y, D s' y = if y =? x then Some (DOO oo') else D s y). { intros y. subst s'. rewrite (dexd_put_owned e _ x _ y (DOO oo)) by (rewrite !dexd_lam; exact HX). rewrite !dexd_lam. reflexivity. }
  assert (FC : oo_flags oo' = AF_Closed). { unfold close_core in CC. do 3 (apply rbind_ok in CC; destruct CC as (? & _ & CC)). injection CC as <-. reflexivity. }
  assert (NX : forall y d, D s y = Some d -> (forall o, d <> DOO o) -> D s' y = Some d). { intros y d HY N. rewrite DD. destruct (Z.eqb_spec y x) as [->|]; [|exact HY]. rewrite HX in HY. injection HY as <-. destruct (N oo eq_refl). }
  split.
  - destruct SN as [a1 (b & a2 & a2') (aa & a3 & a3') (q & a4 & a4') a5 a6]. constructor.
    + apply NX; [exact a1|discriminate].
    + exists b. split; [apply NX; [exact a2|discriminate]|exact a2'].
    + exists aa. split; [apply NX; [exact a3|discriminate]|exact a3'].
    + exists q. split; [apply NX; [exact a4|discriminate]|exact a4'].
    + clear - a5. induction L as [|[y oy] r IH]; [constructor|]. cbn [map fst] in a5. inversion a5; subst. cbn [filter fst]. destruct (negb (y =? x)); [|auto]. cbn [map fst]. constructor; [|auto].
      intros X. apply H1. apply in_map_iff in X. destruct X as (z & <- & Z). apply filter_In in Z. apply in_map. tauto.
    + intros y oy. rewrite filter_In, a6, DD. cbn [fst]. destruct (Z.eqb_spec y x) as [->|N]; cbn [negb].
      * split; [intros [_ X]; discriminate|]. intros (X & F & _). injection X as <-. rewrite FC in F. discriminate.
      * tauto.
  - intros z. destruct (Z.eqb_spec z x) as [->|N].
    + rewrite (dex_no_token _ _ _ HX). apply (dex_no_token _ _ (DOO oo')). rewrite DD, Z.eqb_refl. reflexivity.
    + subst s'. rewrite <- (token_lam s dest sum z), <- (token_lam (put_lamports s dest sum) x 0 z). unfold token_at at 1. rewrite (only_put _ _ _ z) by (cbn [In]; intros [X|[]]; congruence). reflexivity.
Qed.

Theorem exit_market s k m A L x oo cw pw dest : good s -> seen e s k m A L -> usable m -> (needs_crank_authority m -> ~ is_pda e (m_crank_auth m)) -> In (x, oo) L ->
  (let due := coin_due x oo A + pc_due x oo A + rebates_due x oo A in wallet s cw (m_coin_mint m) due /\ wallet s pw (m_pc_mint m) due) ->
  thawed s (m_coin_vault m) -> thawed s (m_pc_vault m) -> dest <> x -> a_lamports (sget s dest) + a_lamports (sget s x) < B64 ->
  exists s', run e c (leaver m (oo_owner oo)) (length (a_evs A) + 2 * own_count x A + 2) s s' /\ history e s' /\ left_market e s s' k m A L x oo cw pw dest.
Proof.
  cbv zeta. intros GD SN P CA IN (WC & WP) TC TP ND LM. set (w := oo_owner oo).
  assert (NW : ~ is_pda e w) by (apply (sn_oos _ _ _ _ _ _ SN) in IN; eapply history_owner; [exact EO|exact (gd_h _ GD)|exact (proj1 IN)]).
  destruct (all_events k m w P CA (a_evs A) s A L GD SN eq_refl) as (s1 & L1 & R1 & G1 & S1 & K1 & KS1 & B1 & O1 & T1).
  destruct (B1 x oo IN) as (oo1 & IN1 & BK1). destruct (booked_sums _ _ _ BK1) as (c1 & p1 & r1 & w1). fold (coin_due x oo A) in c1. fold (pc_due x oo A) in p1. fold (rebates_due x oo A) in r1.
  destruct (all_orders k m w P CA NW (own_count x A) s1 (mkA (a_bids A) (a_asks A) []) L1 x oo1 eq_refl G1 S1 eq_refl IN1 w1) as (s2 & L2 & oo2 & R2 & G2 & S2 & K2 & KS2 & OT2 & IN2 & OW2 & c2 & p2 & r2 & O2 & T2).
  cbn [MatchSteps.a_bids MatchSteps.a_asks] in S2. set (A2 := mkA (others x (a_bids A)) (others x (a_asks A)) []) in *.
  assert (K12 : kept s s2) by (eapply kept_trans; eassumption). assert (T12 : forall z, token_at s2 z = token_at s z) by (intros z; rewrite T2; apply T1).
  pose proof (reachable_inv e EO s2 (gd_h _ G2)) as WI2.
  destruct (locked_exact e EO s2 k m A2 L2 (gd_h _ G2) S2 P x oo2 IN2) as (cb & _ & pb & _ & lc & lp). unfold A2 in lc, lp. cbn [MatchSteps.a_bids MatchSteps.a_asks a_evs filter zsum] in lc, lp. rewrite own_of_others in lc, lp. cbn [zsum] in lc, lp.
  assert (RB : 0 <= oo_rebates oo2). { destruct (one_inv e EO s2 k m A2 L2 (gd_h _ G2) S2 P) as (seq & o & _ & _ & _ & AI). exact (proj1 (ao_reb _ _ _ _ _ _ (ai_acct _ _ _ _ AI x oo2 IN2))). }
  destruct (vaults e EO s2 k m A2 L2 (gd_h _ G2) S2) as (tc & tp & VC & VP). pose proof (vo_own _ _ _ _ _ _ _ VC) as PDA.
  destruct (settle_succeeds e EO s2 k m A2 L2 WI2 S2 P c x oo2 cw pw (t_owner tc) [] IN2 PDA) as (s3 & PR3).
  { cbv zeta. replace (oo_coin_free oo2 + oo_pc_free oo2 + oo_rebates oo2) with (coin_due x oo A + pc_due x oo A + rebates_due x oo A) by lia.
    split; [eapply wallet_same; eassumption|]. split; [eapply wallet_same; eassumption|left; reflexivity]. }
  { destruct TC as (t & HT & ST). exists t. rewrite T12. auto. }
  { destruct TP as (t & HT & ST). exists t. rewrite T12. auto. }
  destruct (settle_effect e EO s2 k m A2 L2 WI2 S2 P c _ s3 PR3 eq_refl) as (x0 & o0 & cw0 & pw0 & X1 & IN0 & _ & X5 & X6 & m' & oo3 & S3 & EM & CB & SO & MV & ON3).
  cbn [app map] in *. injection X1 as <-. injection X5 as <-. injection X6 as <-. assert (o0 = oo2) as -> by (eapply nodup_fst_inj; [exact (sn_once _ _ _ _ _ _ S2)|exact IN0|exact IN2]).
  change (key_at _ 9) with (@None Z) in *. cbn [app] in MV, ON3.
  assert (SG3 : forall a, In a (mkMeta k false :: mkMeta x false :: mkMeta (oo_owner oo2) true :: map (fun y => mkMeta y false) ([m_coin_vault m; m_pc_vault m; cw; pw; t_owner tc; spl_id] ++ [])) -> mk_signer a = true -> leaver m w (mk a)).
  { intros a IA SA. cbn [map app In] in IA. destruct IA as [<-|[<-|[<-|IA]]]; try discriminate; [left; exact OW2|]. repeat (destruct IA as [<-|IA]; [discriminate|]). destruct IA. }
  assert (H3 : history e s3) by exact (history_next e c s2 ISettleFunds _ s3 (gd_h _ G2) (gd_g _ G2) (gd_s _ G2) (who_legal m w CA NW _ SG3) I PR3).
  assert (IX2 : In x (map fst L2)) by (apply in_map_iff; exists (x, oo2); auto).
  assert (G3 : no_overflow e s3).
  { apply (guard_next s2 s3 k m m' _ P (gd_g _ G2) (wi_str _ _ (reachable_inv e EO s3 H3)) ON3 (sn_mkt _ _ _ _ _ _ S2) (sn_mkt _ _ _ _ _ _ S3)); try (rewrite EM; reflexivity).
    - assert (TOK : forall v t, token_at s2 v = Some t -> D s3 v = D s2 v).
      { intros v t HV. specialize (MV v). rewrite HV in MV. destruct MV as (t' & HV' & _). apply token_at_inv in HV, HV'. unfold dexd. destruct HV as [-> _], HV' as [-> _].
        destruct (Z.eqb_spec spl_id (e_prog e)) as [X|]; [destruct (eo_spl _ EO (eq_sym X))|reflexivity]. }
      destruct WC as (twc & HWC & _). destruct WP as (twp & HWP & _). rewrite <- T12 in HWC, HWP.
      intros y [<-|[<-|[<-|[<-|[<-|[<-|[]]]]]]]; [auto| | | | |].
      + right. right. right. left. apply (seen_dex _ _ _ _ _ S3). rewrite put_acct_fst. exact IX2.
      + right. right. right. right. exact (TOK _ _ (vo_tok _ _ _ _ _ _ _ VC)).
      + right. right. right. right. exact (TOK _ _ (vo_tok _ _ _ _ _ _ _ VP)).
      + right. right. right. right. exact (TOK _ _ HWC).
      + right. right. right. right. exact (TOK _ _ HWP).
    - intros q' HQ'. destruct (sn_evs _ _ _ _ _ _ S2) as (q & HQ & VS). destruct (sn_evs _ _ _ _ _ _ S3) as (q1 & HQ1 & VS'). replace (m_event_q m') with (m_event_q m) in HQ1 by (rewrite EM; reflexivity).
      assert (q1 = q') as -> by congruence. exists q. split; [assumption|]. rewrite !(pending_views _ _ _ VS), !(pending_views _ _ _ VS'), EM. cbn [set_counters m_coin_deposits m_pc_deposits]. lia. }
  assert (GD3 : good s3) by (constructor; [assumption|assumption|eapply process_sized; [exact PR3|exact (gd_s _ G2)]]).
  assert (K3 : kept s2 s3) by (eapply process_kept; [exact PR3|discriminate|discriminate]).
  assert (P3 : usable m') by (rewrite EM; exact P).
  assert (IN3 : In (x, oo3) (put_acct L2 x oo3)) by (apply put_acct_In; left; auto).
  destruct CB as (u1 & u2 & u3 & u4 & u5). pose proof SO as (_ & _ & OW3 & _).
  assert (FR : forall j, 0 <= j < 128 -> is_free oo3 j = true).
  { intros j J. destruct (is_free oo3 j) eqn:F; [reflexivity|exfalso]. destruct (slots_agree e EO s3 k m' A2 _ H3 S3 P3) as (_ & _ & SL & _). destruct (SL x oo3 j IN3 J F) as [[(l & IL & _ & OL & _) _]|[_ (E & f & EQ & _)]].
    - destruct (side_at oo3 j); cbn [book_of A2] in IL; apply In_others in IL; contradiction.
    - unfold slot_events, A2 in EQ. cbn [a_evs filter] in EQ. destruct E; discriminate. }
  assert (LX : forall y, a_lamports (sget s3 y) = a_lamports (sget s y)) by (intros y; rewrite (kp_lam _ _ K3); apply kp_lam; exact K12).
  destruct (close_succeeds e s3 k m' A2 _ (reachable_inv e EO s3 H3) S3 P3 c x oo3 dest IN3) as (s4 & PR4); [lia|lia|exact FR|exact ND|rewrite !LX; exact LM|].
  assert (SG4 : forall a, In a [mkMeta x false; mkMeta (oo_owner oo3) true; mkMeta dest false; mkMeta k false] -> mk_signer a = true -> leaver m w (mk a)).
  { intros a IA SA. cbn [In] in IA. destruct IA as [<-|[<-|[<-|[<-|[]]]]]; try discriminate. left. cbn [mk]. congruence. }
  assert (H4 : history e s4) by exact (history_next e c s3 ICloseOO _ s4 H3 G3 (gd_s _ GD3) (who_legal m w CA NW _ SG4) I PR4).
  destruct (close_done e EO s3 c _ s4 (history_anytime e s3 H3) PR4) as (xx & oc & dd & kk & mm & KM & _ & _ & _ & _ & _ & _ & _ & _ & CL & L0 & LD & ON4). cbn [map mk] in KM. injection KM as <- _ <- _.
  destruct (close_seen s3 k m' A2 _ _ s4 x (wi_str _ _ (reachable_inv e EO s3 H3)) S3 PR4 eq_refl) as (S4 & T4).
  exists s4. split; [|split; [exact H4|]].
  { replace (length (a_evs A) + 2 * own_count x A + 2)%nat with (length (a_evs A) + (2 * own_count x A + 2))%nat by lia. eapply run_app; [exact R1|]. eapply run_app; [exact R2|].
    apply (run_tx e c _ s2 ISettleFunds _ s3 _ s4 I SG3 PR3). apply (run_tx e c _ s3 ICloseOO _ s4 _ s4 I SG4 PR4). apply run_nil. }
  exists m', (filter (fun a => negb (fst a =? x)) (put_acct L2 x oo3)).
  split; [rewrite EM; f_equal; lia|]. split; [exact S4|]. split; [|split; [|split; [|split; [|split; [|split]]]]].
  - intros y. split.
    + intros IY. apply in_map_iff in IY. destruct IY as ([z oz] & <- & IZ). apply filter_In in IZ. cbn [fst] in *. destruct IZ as [IZ NZ]. split; [lia|]. apply KS1, KS2. rewrite <- (put_acct_fst L2 x oo3). apply in_map_iff. exists (z, oz). auto.
    + intros [N IY]. apply KS1, KS2 in IY. rewrite <- (put_acct_fst L2 x oo3) in IY. apply in_map_iff in IY. destruct IY as ([z oz] & <- & IZ). cbn [fst] in *. apply in_map_iff. exists (z, oz). split; [reflexivity|]. apply filter_In. cbn [fst]. split; [assumption|lia].
  - intros y oy N IY. destruct (B1 y oy IY) as (oy1 & IY1 & BY). exists oy1. split; [|exact BY]. apply filter_In. cbn [fst]. split; [|lia]. apply put_acct_In. right. auto.
  - eexists. split; [exact CL|reflexivity].
  - exact L0.
  - rewrite (LD ND), !LX. reflexivity.
  - replace (coin_due x oo A) with (oo_coin_free oo2) by lia. replace (pc_due x oo A) with (oo_pc_free oo2) by lia.
    assert (M12 : moves s s2 []) by (apply moves_quiet; exact T12). assert (M34 : moves s3 s4 []) by (apply moves_quiet; exact T4).
    pose proof (moves_app _ _ _ _ _ M12 (moves_app _ _ _ _ _ MV M34)) as M. rewrite app_nil_r in M. exact M.
  - assert (O12 : only s s2 ([k; x; dest; m_event_q m; m_bids m; m_asks m; m_coin_vault m; m_pc_vault m; cw; pw] ++ map ev_owner (a_evs A))).
    { eapply only_trans; [exact O1|exact O2| |]; intros y; cbn [In app]; tauto. }
    assert (O24 : only s2 s4 [k; x; m_coin_vault m; m_pc_vault m; cw; pw; dest]) by (eapply only_trans; [exact ON3|exact ON4| |]; intros y; cbn [In]; tauto).
    eapply only_trans; [exact O12|exact O24|intros y IY; exact IY|]. intros y IY. apply in_or_app. left. cbn [In] in *. tauto.
Qed.
End Exit.
