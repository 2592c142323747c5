(** What a successful cancel or prune does to the market, read off the chain. *)
From Coq Require Import Permutation.
From Verif Require Import Base BaseProofs Fees ListSum Queue QueueProofs Codec CodecProofs Critbit CritbitProofs CritbitSlab Market Matching MatchSteps MatchRefine MatchAsk MatchBid MatchRun MatchSpec Ledger LedgerSteps LedgerRun MatchReport MatchOrder MatchFacts Slots Core CoreInv CoreNew CoreCancel CoreConsume CoreSettle CoreFrame Instr InstrProofs Store Process StoreProofs World WorldInv WorldLoad WorldRun WorldStep WorldStep2 WorldConsume WorldInit WorldMain WorldSpec WorldFacts WorldFwd.

(** ** Vocabulary *)
Lemma put_acct_In L x oo' y oy : In (y, oy) (put_acct L x oo') <-> (y = x /\ oy = oo' /\ In x (map fst L)) \/ (y <> x /\ In (y, oy) L).
Proof.
  unfold put_acct. rewrite in_map_iff. split.
  - intros ([z oz] & E & I). cbn [fst] in E. destruct (Z.eqb_spec z x) as [->|N]; [|right; injection E as <- <-; auto].
    injection E as <- <-. left. split; [reflexivity|]. split; [reflexivity|]. apply (in_map fst) in I. exact I.
  - intros [(-> & -> & I)|[N I]].
    + apply in_map_iff in I. destruct I as ([z oz] & <- & I). exists (z, oz). cbn [fst]. rewrite Z.eqb_refl. auto.
    + exists (y, oy). cbn [fst]. replace (y =? x) with false by lia. auto.
Qed.
Lemma put_acct_fst L x oo' : map fst (put_acct L x oo') = map fst L.
Proof. unfold put_acct. rewrite map_map. apply map_ext. intros [y oy]. cbn [fst]. destruct (Z.eqb_spec y x); cbn [fst]; congruence. Qed.
Lemma drop_nil bk : drop [] bk = bk.
Proof. unfold drop. cbn [existsb]. induction bk as [|y r IH]; cbn [filter negb]; [reflexivity|]. f_equal. exact IH. Qed.
Lemma drop_In ls bk y : In y (drop ls bk) <-> In y bk /\ ~ In (l_key y) (map l_key ls).
Proof.
  unfold drop. rewrite filter_In. assert (E : existsb (fun l => l_key l =? l_key y) ls = true <-> In (l_key y) (map l_key ls)).
  { rewrite existsb_exists, in_map_iff. split; intros (l & H1 & H2); exists l; split; auto; lia. }
  destruct (existsb _ ls); cbn [negb]; intuition congruence.
Qed.
Lemma drop_app a b bk : drop (a ++ b) bk = drop b (drop a bk).
Proof.
  unfold drop. induction bk as [|y r IH]; cbn [filter]; [reflexivity|]. rewrite existsb_app.
  destruct (existsb _ a); cbn [orb negb filter]; [exact IH|]. destruct (existsb _ b); cbn [negb]; [exact IH|]. f_equal. exact IH.
Qed.
Lemma drop_one l bk : drop [l] bk = ldel (l_key l) bk.
Proof. unfold drop, ldel. apply filter_ext. intros y. cbn [existsb]. rewrite orb_false_r, Z.eqb_sym. reflexivity. Qed.
Lemma drop_dels ls : forall bk, drop ls bk = dels ls bk.
Proof.
  induction ls as [|l r IH]; intros bk; [apply drop_nil|]. change (l :: r) with ([l] ++ r). rewrite drop_app, drop_one, IH. reflexivity.
Qed.
Lemma drop_ext ls ls' bk : (forall y, In y bk -> In (l_key y) (map l_key ls) <-> In (l_key y) (map l_key ls')) -> drop ls bk = drop ls' bk.
Proof.
  intros H. unfold drop. apply filter_ext_in. intros y Hy. specialize (H y Hy).
  assert (E : forall l0, existsb (fun l => l_key l =? l_key y) l0 = true <-> In (l_key y) (map l_key l0)).
  { intros l0. rewrite existsb_exists, in_map_iff. split; intros (l & H1 & H2); exists l; split; auto; lia. }
  pose proof (E ls) as E1. pose proof (E ls') as E2. destruct (existsb _ ls), (existsb _ ls'); try reflexivity; exfalso; intuition congruence.
Qed.
Lemma changed_trans a b c x1 x2 x3 x4 x5 y1 y2 y3 y4 y5 : changed_by a b x1 x2 x3 x4 x5 -> changed_by b c y1 y2 y3 y4 y5 ->
  changed_by a c (x1 + y1) (x2 + y2) (x3 + y3) (x4 + y4) (x5 + y5).
Proof. unfold changed_by. lia. Qed.
Lemma same_orders_refl a : same_orders a a.
Proof. repeat split. Qed.
Lemma same_orders_trans a b c : same_orders a b -> same_orders b c -> same_orders a c.
Proof.
  intros (h1 & h2 & h3 & h4) (g1 & g2 & g3 & g4). split; [congruence|]. split; [congruence|]. split; [congruence|].
  intros i Hi. destruct (h4 i Hi) as (? & ? & ? & ?). destruct (g4 i Hi) as (? & ? & ? & ?). repeat split; congruence.
Qed.
Lemma refund_effect m oo sd bl : same_orders oo (refund oo sd (zsum (worth m sd) bl)) /\
  changed_by oo (refund oo sd (zsum (worth m sd) bl)) (match sd with Ask => zsum (worth m Ask) bl | Bid => 0 end) 0 (match sd with Bid => zsum (worth m Bid) bl | Ask => 0 end) 0 0.
Proof.
  split; [destruct sd; repeat split|]. unfold changed_by. destruct sd; cbn [refund set_pc_free set_coin_free set_balances oo_coin_free oo_coin_total oo_pc_free oo_pc_total oo_rebates]; lia.
Qed.
Lemma cancel_ev_out m sd l : cancel_ev m sd l = out_of m sd l.
Proof. destruct sd; reflexivity. Qed.
Lemma withdrawn_nil m A x oo : withdrawn m A x oo A oo [] [].
Proof.
  constructor; rewrite ?drop_nil; try reflexivity; try (intros l []).
  - exists []. rewrite app_nil_r. split; [reflexivity|constructor].
  - unfold changed_by. cbn [zsum]. lia.
  - apply same_orders_refl.
Qed.
Lemma withdrawn_app m A x oo A1 oo1 A2 oo2 b1 a1 b2 a2 : withdrawn m A x oo A1 oo1 b1 a1 -> withdrawn m A1 x oo1 A2 oo2 b2 a2 ->
  withdrawn m A x oo A2 oo2 (b1 ++ b2) (a1 ++ a2).
Proof.
  intros [x1 x2 x3 x4 (E1 & x5 & x6) x7 x8] [y1 y2 y3 y4 (E2 & y5 & y6) y7 y8]. constructor.
  - intros l Hl. apply in_app_or in Hl. destruct Hl as [Hl|Hl]; [auto|]. destruct (y1 l Hl) as [I O]. rewrite x3 in I. apply drop_In in I. tauto.
  - intros l Hl. apply in_app_or in Hl. destruct Hl as [Hl|Hl]; [auto|]. destruct (y2 l Hl) as [I O]. rewrite x4 in I. apply drop_In in I. tauto.
  - rewrite drop_app, <- x3. assumption.
  - rewrite drop_app, <- x4. assumption.
  - exists (E1 ++ E2). split; [rewrite y5, x5, app_assoc; reflexivity|]. rewrite x6, y6, !map_app.
    rewrite <- !app_assoc. apply Permutation_app_head. rewrite !app_assoc. apply Permutation_app_tail. apply Permutation_app_comm.
  - rewrite !zsum_app. exact (changed_trans _ _ _ _ _ _ _ _ _ _ _ _ _ x7 y7).
  - eapply same_orders_trans; eassumption.
Qed.
Lemma withdrawn_perm m A x oo A' oo' b a b' a' : Permutation b b' -> Permutation a a' -> withdrawn m A x oo A' oo' b a -> withdrawn m A x oo A' oo' b' a'.
Proof.
  intros P Q [x1 x2 x3 x4 (E1 & x5 & x6) x7 x8]. constructor; try assumption.
  - intros l Hl. apply x1. eapply Permutation_in; [symmetry; exact P|assumption].
  - intros l Hl. apply x2. eapply Permutation_in; [symmetry; exact Q|assumption].
  - rewrite x3. apply drop_ext. intros y _. split; apply Permutation_in; [|symmetry]; apply Permutation_map; assumption.
  - rewrite x4. apply drop_ext. intros y _. split; apply Permutation_in; [|symmetry]; apply Permutation_map; assumption.
  - exists E1. split; [assumption|]. rewrite x6. apply Permutation_app; apply Permutation_map; assumption.
  - rewrite <- (zsum_perm _ _ _ P), <- (zsum_perm _ _ _ Q). assumption.
Qed.
Lemma withdrawn_list m A x oo sd ls : (forall l, In l ls -> In l (book_of A sd) /\ l_owner l = x) ->
  withdrawn m A x oo (cancelled_list m A sd ls) (refund oo sd (zsum (leaf_val m sd) ls)) (match sd with Bid => ls | Ask => [] end) (match sd with Ask => ls | Bid => [] end).
Proof.
  intros H. pose proof (cancelled_list_book m sd ls A) as B. pose proof (cancelled_list_other m sd ls A) as B'. pose proof (cancelled_list_evs m sd ls A) as EV.
  assert (Z1 : zsum (leaf_val m sd) ls = zsum (worth m sd) ls) by (destruct sd; reflexivity). rewrite Z1.
  assert (M1 : map (cancel_ev m sd) ls = map (out_of m sd) ls) by (apply map_ext; intros; apply cancel_ev_out). rewrite M1 in EV.
  destruct (refund_effect m oo sd ls) as [S C]. destruct sd; cbn [book_of other] in B, B', H; constructor; rewrite ?drop_nil, ?drop_dels; try assumption; try (intros l []).
  - exists (map (out_of m Bid) ls). rewrite app_nil_r. auto.
  - exists (map (out_of m Ask) ls). cbn [map app]. auto.
Qed.
Lemma withdrawn_one m A x oo sd l : In l (book_of A sd) -> l_owner l = x ->
  withdrawn m A x oo (cancelled m A sd l) (refund oo sd (leaf_val m sd l)) (match sd with Bid => [l] | Ask => [] end) (match sd with Ask => [l] | Bid => [] end).
Proof.
  intros H O. pose proof (withdrawn_list m A x oo sd [l]) as W. cbn [cancelled_list zsum] in W. rewrite Z.add_0_r in W. apply W. intros y [<-|[]]. auto.
Qed.
Lemma ids_withdrawn m x ids : forall A oo, (forall sd, sorted (book_of A sd)) ->
  (forall sd l, In l (book_of A sd) -> In (l_key l, sd) ids -> l_owner l = x) ->
  exists bl al, withdrawn m A x oo (fst (cancel_ids m A oo ids)) (snd (cancel_ids m A oo ids)) bl al /\ NoDup bl /\ NoDup al /\
    (forall l, In l bl <-> In l (a_bids A) /\ In (l_key l, Bid) ids) /\ (forall l, In l al <-> In l (a_asks A) /\ In (l_key l, Ask) ids).
Proof.
  induction ids as [|[id sd] r IH]; intros A oo SO OW; cbn [cancel_ids].
  - exists [], []. split; [apply withdrawn_nil|]. split; [constructor|]. split; [constructor|]. cbn [In]. split; intros; tauto.
  - destruct (lfind id (book_of A sd)) as [l|] eqn:LF.
    + destruct (lfind_Some _ _ _ LF) as [IL KL]. assert (OL : l_owner l = x) by (apply (OW sd); [assumption|left; congruence]).
      pose proof (withdrawn_one m A x oo sd l IL OL) as W1.
      destruct (IH (cancelled m A sd l) (refund oo sd (leaf_val m sd l))) as (bl & al & W2 & N1 & N2 & I1 & I2).
      * intros sd'. apply hit_sorted. exact SO.
      * intros sd' y Hy HI. apply (OW sd'); [eapply cancelled_In; exact Hy|right; assumption].
      * exists ((match sd with Bid => [l] | Ask => [] end) ++ bl), ((match sd with Ask => [l] | Bid => [] end) ++ al).
        split; [eapply withdrawn_app; eassumption|].
        assert (NI : ~ In l (book_of (cancelled m A sd l) sd)) by (rewrite cancelled_book, ldel_In; tauto).
        assert (KI : forall y, In y (book_of A sd) -> l_key y = id -> y = l).
        { intros y Hy Ky. eapply sorted_key_inj; [apply sorted_nodup_keys, (SO sd)|assumption|assumption|congruence]. }
        pose proof (cancelled_book m A sd l) as CB. pose proof (cancelled_other m A sd l) as CO.
        destruct sd; cbn [app book_of other] in *.
        -- split; [constructor; [rewrite I1; tauto|assumption]|]. split; [assumption|]. split; intros y; cbn [In].
           ++ rewrite I1, CB, ldel_In. split; [intros [<-|[[Y1 Y2] Y3]]; [split; [assumption|left; congruence]|auto]|].
              intros [Y1 [Y2|Y2]]; [left; symmetry; apply KI; congruence|]. destruct (Z.eq_dec (l_key y) (l_key l)) as [E|E]; [left; symmetry; apply KI; congruence|right; auto].
           ++ rewrite I2, CO. split; [intros [Y1 Y2]; auto|]. intros [Y1 [Y2|Y2]]; [discriminate|auto].
        -- split; [assumption|]. split; [constructor; [rewrite I2; tauto|assumption]|]. split; intros y; cbn [In].
           ++ rewrite I1, CO. split; [intros [Y1 Y2]; auto|]. intros [Y1 [Y2|Y2]]; [discriminate|auto].
           ++ rewrite I2, CB, ldel_In. split; [intros [<-|[[Y1 Y2] Y3]]; [split; [assumption|left; congruence]|auto]|].
              intros [Y1 [Y2|Y2]]; [left; symmetry; apply KI; congruence|]. destruct (Z.eq_dec (l_key y) (l_key l)) as [E|E]; [left; symmetry; apply KI; congruence|right; auto].
    + rewrite lfind_None in LF. destruct (IH A oo SO) as (bl & al & W2 & N1 & N2 & I1 & I2).
      { intros sd' y Hy HI. apply (OW sd'); [assumption|right; assumption]. }
      exists bl, al. split; [assumption|]. split; [assumption|]. split; [assumption|]. split; intros y.
      * rewrite I1. cbn [In]. split; [intros [Y1 Y2]; auto|]. intros [Y1 [Y2|Y2]]; [|auto]. injection Y2 as E ->. exfalso. apply (LF y Y1). congruence.
      * rewrite I2. cbn [In]. split; [intros [Y1 Y2]; auto|]. intros [Y1 [Y2|Y2]]; [|auto]. injection Y2 as E ->. exfalso. apply (LF y Y1). congruence.
Qed.
Lemma sorted_nodup bk : sorted bk -> NoDup bk.
Proof. intros S. apply sorted_nodup_keys in S. exact (NoDup_map_inv _ _ S). Qed.

(** ** The instruction *)
Section Effect.
Variable e : env.
Hypothesis EO : env_ok e.
Notation D := (dexd e).
Variables (s : store) (k : Z) (m : market) (A : astate) (L : list (Z * open_orders)).
Hypothesis (WI : winv e s) (SN : seen e s k m A L) (P : usable m).

Lemma only_cancel x (oo oo' : open_orders) bids asks q o' : books e s k m bids asks q -> live (D s) k x oo -> ob_mkt o' = m ->
  only s (put_data (write_obs s k (m_bids m) (m_asks m) (m_event_q m) o') x (DOO oo')) [m_bids m; m_asks m; m_event_q m; x].
Proof.
  intros [HM _ _ _ _] _ EM y NI. cbn [In] in NI. unfold write_obs. rewrite !sget_put.
  replace (y =? x) with false by lia. replace (y =? m_event_q m) with false by lia. replace (y =? m_asks m) with false by lia. replace (y =? m_bids m) with false by lia.
  destruct (Z.eqb_spec y k) as [->|]; [|reflexivity]. rewrite EM. apply dexd_owned in HM. destruct HM as [_ HM]. unfold set_data. rewrite <- HM. destruct (sget s k). reflexivity.
Qed.
Lemma cancel_effect core s' x w bids asks q oo o' oo' (Q : astate -> Prop) : ran_cancel e s core s' k x w m bids asks q oo o' oo' ->
  ob_mkt o' = m /\ same_id oo oo' ->
  (forall seq rest, cinv (mkObs bids asks m q) seq ((x, oo) :: rest) A -> exists A', cinv o' seq ((x, oo') :: rest) A' /\ Q A') ->
  In (x, oo) L /\ oo_owner oo = w /\ exists A', Q A' /\ seen e s' k m A' (put_acct L x oo') /\ only s s' [m_bids m; m_asks m; m_event_q m; x].
Proof.
  intros R FR SP. pose proof (rc_books _ _ _ _ _ _ _ _ _ _ _ _ _ _ R) as B. pose proof (rc_oo _ _ _ _ _ _ _ _ _ _ _ _ _ _ R) as LV.
  pose proof B as [HM NB HB HA HQ]. destruct (seen_state e s k m A L WI SN P) as (seq & o & MS).
  assert (EO' : o = mkObs bids asks m q).
  { destruct MS. destruct o as [b a mm qq]. cbn [ob_mkt ob_bids ob_asks ob_eq] in *. congruence. }
  subst o. assert (IN : In (x, oo) L) by (apply (ms_lists _ _ _ _ _ _ _ MS); exact LV).
  destruct (lists_take _ _ _ _ _ (ms_lists _ _ _ _ _ _ _ MS) LV) as (rest & PM & ND & NI & INR).
  pose proof (cinv_perm _ _ _ _ _ PM (ms_inv _ _ _ _ _ _ _ MS)) as C. destruct (SP _ _ C) as (A' & C' & QA). pose proof (ms_req _ _ _ _ _ _ _ MS) as HR.
  split; [exact IN|]. split; [exact (rc_owner _ _ _ _ _ _ _ _ _ _ _ _ _ _ R)|]. exists A'. split; [exact QA|]. split.
  - destruct (ca_view e EO s core s' k x w m bids asks q oo o' oo' WI R FR (0, seq) HR) as (V & QU & LV'). pose proof FR as [FM FI].
    assert (SL : same_links m (ob_mkt o')) by (rewrite FM; apply same_links_refl). pose proof (wi_str _ _ WI) as W.
    assert (TN : touchable e s k x /\ oo_next k oo') by (split; [right; eauto|]; left; destruct LV' as (_ & ? & ?); auto).
    assert (LS : lists (D s') k (put_acct L x oo')).
    { split; [rewrite put_acct_fst; apply MS|]. intros y oy. rewrite put_acct_In.
      assert (OL : forall y oy, y <> x -> live (D s') k y oy <-> live (D s) k y oy).
      { intros y0 oy0 Ny. eapply over_live with (1 := HM) (bids := bids) (asks := asks) (q := q) (rq := (0, seq)); eauto; intros a1 oo1 [= <- <-]; auto. }
      destruct (Z.eq_dec y x) as [->|N].
      - split; [intros [(_ & -> & _)|[? _]]; [exact LV'|contradiction]|]. intros LY. left. split; [reflexivity|]. split; [destruct LY, LV'; congruence|].
        change x with (fst (x, oo)). apply in_map. exact IN.
      - rewrite (OL y oy N). split; [intros [[? _]|[_ I]]; [contradiction|apply MS; exact I]|]. intros LY. right. split; [assumption|]. apply MS. exact LY. }
    assert (C2 : cinv o' seq (put_acct L x oo') A').
    { eapply cinv_perm; [|exact C']. apply NoDup_Permutation.
      - apply nodup_pairs. exact (ci_nodup _ _ _ _ C').
      - apply nodup_pairs. rewrite put_acct_fst. apply MS.
      - intros [y oy]. rewrite put_acct_In. cbn [In]. rewrite INR. split.
        + intros [[= <- <-]|[N LY]]; [left; split; [reflexivity|]; split; [reflexivity|]; change x with (fst (x, oo)); apply in_map; exact IN|right; split; [assumption|apply MS; exact LY]].
        + intros [(-> & -> & _)|[N I]]; [left; reflexivity|right; split; [assumption|apply MS; exact I]]. }
    assert (MS' : mstate (D s') k (ob_mkt o') seq (put_acct L x oo') A' o').
    { eapply over_mstate with (m := m) (bids := bids) (asks := asks) (q := q) (rq := (0, seq)); eauto; intros a1 oo1 [= <- <-]; auto. }
    rewrite FM in MS'. eapply state_seen; [|exact MS'].
    assert (AT : D s' k = Some (DMarket (ob_mkt o'))).
    { eapply over_at with (m := m) (bids := bids) (asks := asks) (q := q) (rq := (0, seq)); eauto; intros a1 oo1 [= <- <-]; auto. }
    rewrite FM in AT. exact AT.
  - rewrite (rc_store _ _ _ _ _ _ _ _ _ _ _ _ _ _ R). eapply only_cancel; [exact B|exact LV|apply FR].
Qed.
Lemma sig_signs ms i w : signed ms i w -> signs ms i w.
Proof. intros ([a b] & N & E1 & E2). cbn in *. subst. exact N. Qed.
Lemma key_at_map ms i l : map mk ms = l -> key_at ms i = nth_error l i.
Proof. intros <-. unfold key_at. symmetry. apply nth_error_map. Qed.
Notation result s' := (cancels e s s' k m A L).

(** Running a cancel: the accounts named and the checks made. *)
Lemma cancel_named core ms s' : proc_cancel e s core ms = Ok s' -> key_at ms 0 = Some k ->
  exists x w bids asks q oo o' oo', ran_cancel e s core s' k x w m bids asks q oo o' oo' /\ signs ms 4 w /\ key_at ms 3 = Some x.
Proof.
  intros H K. destruct (cancel_ran e _ _ _ _ (wi_str _ _ WI) H) as (k' & x & w & m' & bids & asks & q & oo & o' & oo' & R & SG & rest & KM).
  rewrite (key_at_map _ _ _ KM) in K. injection K as ->. assert (m' = m) as ->.
  { pose proof (bk_mkt _ _ _ _ _ _ _ (rc_books _ _ _ _ _ _ _ _ _ _ _ _ _ _ R)) as X. pose proof (sn_mkt _ _ _ _ _ _ SN). congruence. }
  exists x, w, bids, asks, q, oo, o', oo'. split; [exact R|]. split; [apply sig_signs; assumption|]. rewrite (key_at_map _ _ _ KM). reflexivity.
Qed.
Lemma v2_core bids asks q seq x oo rest sd id o' oo' : cinv (mkObs bids asks m q) seq ((x, oo) :: rest) A ->
  cancel_order_v2 (mkObs bids asks m q) sd x oo id = Ok (o', oo') ->
  exists l, In l (book_of A sd) /\ l_key l = id /\ l_owner l = x /\
    cinv o' seq ((x, oo') :: rest) (cancelled m A sd l) /\ oo' = refund oo sd (leaf_val m sd l).
Proof.
  intros C H. pose proof (cancel_v2_spec _ _ _ _ _ _ sd id C) as S. rewrite H in S. destruct (lfind id (book_of A sd)) as [l|] eqn:LF; [|discriminate].
  destruct (Z.eqb_spec (l_owner l) x) as [OW|]; [|discriminate]. destruct S as [[S _]|(o1 & S & C1 & _)]; [discriminate|]. injection S as <- ->.
  destruct (lfind_Some _ _ _ LF). exists l. auto.
Qed.
Lemma one_core bids asks q x oo sd id o' oo' : cancel_order_v2 (mkObs bids asks m q) sd x oo id = Ok (o', oo') ->
  (forall seq rest, cinv (mkObs bids asks m q) seq ((x, oo) :: rest) A -> exists A', cinv o' seq ((x, oo') :: rest) A' /\
     exists l, In l (book_of A sd) /\ l_key l = id /\ l_owner l = x /\ withdrawn m A x oo A' oo' (match sd with Bid => [l] | Ask => [] end) (match sd with Ask => [l] | Bid => [] end)).
Proof.
  intros H seq rest C. destruct (v2_core _ _ _ _ _ _ _ _ _ _ _ C H) as (l & IL & KL & OL & C' & ->).
  exists (cancelled m A sd l). split; [exact C'|]. exists l. split; [assumption|]. split; [assumption|]. split; [assumption|]. apply withdrawn_one; assumption.
Qed.
Theorem cancel_v2_effect c sd id ms s' : process e c s (ICancelV2 sd id) ms = Ok s' -> key_at ms 0 = Some k ->
  exists x oo l, key_at ms 3 = Some x /\ In (x, oo) L /\ signs ms 4 (oo_owner oo) /\ In l (book_of A sd) /\ l_key l = id /\ l_owner l = x /\
    result s' x oo (match sd with Bid => [l] | Ask => [] end) (match sd with Ask => [l] | Bid => [] end).
Proof.
  intros H K. cbn [process] in H. unfold proc_cancel_v2 in H. destruct (cancel_named _ _ _ H K) as (x & w & bids & asks & q & oo & o' & oo' & R & SG & K3).
  pose proof (rc_core _ _ _ _ _ _ _ _ _ _ _ _ _ _ R) as HC. cbv beta in HC.
  destruct (cancel_effect _ _ _ _ _ _ _ _ _ _ (fun A' => exists l, In l (book_of A sd) /\ l_key l = id /\ l_owner l = x /\ withdrawn m A x oo A' oo' (match sd with Bid => [l] | Ask => [] end) (match sd with Ask => [l] | Bid => [] end)) R) as (IN & OW & A' & (l & IL & KL & OL & WD) & SE & ON).
  - pose proof (cancel_v2_frame _ _ _ _ _ _ _ HC) as F. exact F.
  - apply one_core. exact HC.
  - exists x, oo, l. rewrite OW. repeat (split; [assumption|]). exists A', oo'. auto.
Qed.
Theorem cancel_foreign c sd l ms : In l (book_of A sd) -> key_at ms 0 = Some k -> (forall oo, In (l_owner l, oo) L -> ~ signs ms 4 (oo_owner oo)) ->
  forall s', process e c s (ICancelV2 sd (l_key l)) ms <> Ok s'.
Proof.
  intros IL K NS s' H. destruct (cancel_v2_effect _ _ _ _ _ H K) as (x & oo & l' & K3 & IN & SG & IL' & KL & OL & _).
  destruct (seen_state e s k m A L WI SN P) as (seq & o & MS). pose proof (cinv_sorted _ _ _ _ (ms_inv _ _ _ _ _ _ _ MS) sd) as ST.
  assert (l' = l) as -> by (pose proof (lfind_In _ _ _ ST IL eq_refl); pose proof (lfind_In _ _ _ ST IL' KL); congruence).
  subst x. exact (NS oo IN SG).
Qed.
Theorem cancel_cid_effect c cid ms s' : process e c s (ICancelByCid cid) ms = Ok s' -> key_at ms 0 = Some k ->
  cid <> 0 /\ exists x oo sd l, key_at ms 3 = Some x /\ In (x, oo) L /\ signs ms 4 (oo_owner oo) /\ In l (book_of A sd) /\ l_cid l = cid /\ l_owner l = x /\
    result s' x oo (match sd with Bid => [l] | Ask => [] end) (match sd with Ask => [l] | Bid => [] end).
Proof.
  intros H K. cbn [process] in H. unfold proc_cancel_cid in H. apply rbind_ok in H. destruct H as (u & HZ & H). apply check_ok in HZ.
  assert (NZ : cid <> 0) by lia. split; [assumption|]. destruct (cancel_named _ _ _ H K) as (x & w & bids & asks & q & oo & o' & oo' & R & SG & K3).
  pose proof (rc_core _ _ _ _ _ _ _ _ _ _ _ _ _ _ R) as HC. cbv beta in HC.
  destruct (cancel_effect _ _ _ _ _ _ _ _ _ _ (fun A' => exists sd l, In l (book_of A sd) /\ l_cid l = cid /\ l_owner l = x /\ withdrawn m A x oo A' oo' (match sd with Bid => [l] | Ask => [] end) (match sd with Ask => [l] | Bid => [] end)) R) as (IN & OW & A' & (sd & l & IL & KL & OL & WD) & SE & ON).
  - exact (cancel_cid_frame _ _ _ _ _ _ HC).
  - intros seq rest C. pose proof (cancel_by_cid_spec _ _ _ _ _ _ cid C NZ) as S. rewrite HC in S. destruct (find _ (tagged oo)) as [i|] eqn:F; [|discriminate].
    destruct S as [S NM]. symmetry in S. destruct (v2_core _ _ _ _ _ _ _ _ _ _ _ C S) as (l & IL & KL & OL & C' & ->).
    exists (cancelled m A (side_at oo i) l). split; [exact C'|]. exists (side_at oo i), l. split; [assumption|].
    assert (LF : lfind (order_at oo i) (book_of A (side_at oo i)) = Some l) by (apply lfind_In; [apply (cinv_sorted _ _ _ _ C)|assumption|assumption]).
    destruct (NM l LF) as [_ SL]. apply find_some in F. destruct F as [_ F].
    split; [rewrite (ao_leaf_cid _ _ _ _ _ _ (ci_acct _ _ _ _ C x oo (or_introl eq_refl)) _ l IL OL), SL; lia|]. split; [assumption|]. apply withdrawn_one; assumption.
  - exists x, oo, sd, l. rewrite OW. repeat (split; [assumption|]). exists A', oo'. auto.
Qed.
Lemma cids_core bids asks q seq x oo rest cids o' oo' : cinv (mkObs bids asks m q) seq ((x, oo) :: rest) A -> ~ In 0 cids ->
  cancel_by_cids_core (mkObs bids asks m q) x oo cids = Ok (o', oo') ->
  exists A', cinv o' seq ((x, oo') :: rest) A' /\
    withdrawn m A x oo A' oo' (with_cid x cids (a_bids A)) (with_cid x cids (a_asks A)).
Proof.
  intros C NZ H. destruct (cancel_by_cids_spec _ _ _ _ _ _ cids C NZ) as [S IDS]. cbv zeta in S, IDS. rewrite H in S.
  destruct S as [S|(o1 & S & C1 & _)]; [discriminate|]. injection S as <- EOO. cbn [ob_mkt] in EOO, C1.
  set (ids := map _ (filter _ (tagged oo))) in *. clearbody ids. rewrite <- EOO in C1. eexists. split; [exact C1|].
  destruct (ids_withdrawn m x ids A oo (cinv_sorted _ _ _ _ C)) as (bl & al & W & N1 & N2 & I1 & I2).
  { intros sd l IL HI. exact (proj1 (proj1 (IDS sd l IL) HI)). }
  rewrite <- EOO in W.
  assert (X : forall sd l, In l (with_cid x cids (book_of A sd)) <-> In l (book_of A sd) /\ In (l_key l, sd) ids).
  { intros sd l. unfold with_cid, own_orders. rewrite !filter_In. split.
    - intros [[Y1 Y2] Y3]. split; [assumption|]. apply (proj2 (IDS sd l Y1)). split; [lia|]. apply andb_prop in Y3. destruct Y3 as [Y3 _]. apply existsb_exists in Y3. destruct Y3 as (z & Z1 & Z2). apply Z.eqb_eq in Z2. congruence.
    - intros [Y1 Y2]. apply (proj1 (IDS sd l Y1)) in Y2. destruct Y2 as [Y2 Y3]. split; [split; [assumption|lia]|]. apply andb_true_intro. split; [apply existsb_exists; exists (l_cid l); split; [assumption|apply Z.eqb_refl]|].
      apply negb_true_iff, Z.eqb_neq. intros E. rewrite E in Y3. contradiction. }
  assert (ND : forall sd, NoDup (with_cid x cids (book_of A sd))) by (intros sd; unfold with_cid, own_orders; apply NoDup_filter, NoDup_filter, sorted_nodup, (cinv_sorted _ _ _ _ C)).
  eapply withdrawn_perm; [| |exact W]; (apply NoDup_Permutation; [assumption|apply (ND Bid) || apply (ND Ask)|]); intros l; [rewrite I1; symmetry; apply (X Bid)|rewrite I2; symmetry; apply (X Ask)].
Qed.
Lemma with_cid_filter x cids bk : with_cid x (filter (fun z => negb (z =? 0)) cids) bk = with_cid x cids bk.
Proof.
  unfold with_cid. apply filter_ext. intros l. destruct (Z.eqb_spec (l_cid l) 0) as [E|E]; cbn [negb]; [rewrite !andb_false_r; reflexivity|]. rewrite !andb_true_r.
  assert (I : forall z, existsb (Z.eqb (l_cid l)) z = true <-> In (l_cid l) z).
  { intros z. rewrite existsb_exists. split; [intros (y & Y1 & Y2); apply Z.eqb_eq in Y2; congruence|]. intros Y. exists (l_cid l). split; [assumption|apply Z.eqb_refl]. }
  pose proof (I cids) as I1. pose proof (I (filter (fun z => negb (z =? 0)) cids)) as I2. rewrite filter_In in I2.
  destruct (existsb _ (filter _ _)), (existsb _ cids); try reflexivity; exfalso.
  - destruct (proj1 I2 eq_refl) as [X _]. apply I1 in X. discriminate.
  - assert (X : In (l_cid l) cids /\ negb (l_cid l =? 0) = true) by (split; [apply I1; reflexivity|lia]). apply I2 in X. discriminate.
Qed.
Theorem cancel_cids_effect c cids ms s' : process e c s (ICancelByCids cids) ms = Ok s' -> key_at ms 0 = Some k ->
  exists x oo, key_at ms 3 = Some x /\ In (x, oo) L /\ signs ms 4 (oo_owner oo) /\ result s' x oo (with_cid x cids (a_bids A)) (with_cid x cids (a_asks A)).
Proof.
  intros H K. cbn [process] in H. unfold proc_cancel_cids in H. destruct (cancel_named _ _ _ H K) as (x & w & bids & asks & q & oo & o' & oo' & R & SG & K3).
  pose proof (rc_core _ _ _ _ _ _ _ _ _ _ _ _ _ _ R) as HC. cbv beta in HC.
  destruct (cancel_effect _ _ _ _ _ _ _ _ _ _ (fun A' => withdrawn m A x oo A' oo' (with_cid x cids (a_bids A)) (with_cid x cids (a_asks A))) R) as (IN & OW & A' & WD & SE & ON).
  - exact (cancel_cids_frame _ _ _ _ _ _ HC).
  - intros seq rest C. destruct (cids_core _ _ _ _ _ _ _ (filter (fun z => negb (z =? 0)) cids) o' oo' C) as (A' & C' & WD); [|exact HC|].
    + intros X. apply filter_In in X. destruct X as [_ X]. discriminate.
    + rewrite !with_cid_filter in WD. eauto.
  - exists x, oo. rewrite OW. repeat (split; [assumption|]). exists A', oo'. auto.
Qed.
Theorem prune_effect c limit ms s' : process e c s (IPrune limit) ms = Ok s' -> key_at ms 0 = Some k -> 0 <= limit ->
  exists x oo bl al, key_at ms 4 = Some x /\ In (x, oo) L /\ key_at ms 5 = Some (oo_owner oo) /\ has_flag (m_flags m) AF_Permissioned = true /\ signs ms 3 (m_prune_auth m) /\
    NoDup bl /\ NoDup al /\ zlen bl + zlen al <= limit /\ result s' x oo bl al /\
    (2 * (zlen (a_bids A) + zlen (a_asks A)) <= limit -> result s' x oo (own_orders x (a_bids A)) (own_orders x (a_asks A))).
Proof.
  intros H K HL. cbn [process] in H. destruct (prune_ran e _ _ _ _ (wi_str _ _ WI) H) as (k' & x & w & auth & m' & bids & asks & q & oo & o' & oo' & R & SG & PA & _ & KM).
  rewrite (key_at_map _ _ _ KM) in K. injection K as ->. assert (m' = m) as ->.
  { pose proof (bk_mkt _ _ _ _ _ _ _ (rc_books _ _ _ _ _ _ _ _ _ _ _ _ _ _ R)) as X. pose proof (sn_mkt _ _ _ _ _ _ SN). congruence. }
  pose proof (rc_core _ _ _ _ _ _ _ _ _ _ _ _ _ _ R) as HC. cbv beta in HC.
  unfold prune_authority in PA. destruct (has_flag (m_flags m) AF_Permissioned) eqn:PF; [|discriminate]. injection PA as <-.
  destruct (cancel_effect _ _ _ _ _ _ _ _ _ _ (fun A' => exists bl al, NoDup bl /\ NoDup al /\ zlen bl + zlen al <= limit /\ withdrawn m A x oo A' oo' bl al /\
     (2 * (zlen (a_bids A) + zlen (a_asks A)) <= limit -> withdrawn m A x oo A' oo' (own_orders x (a_bids A)) (own_orders x (a_asks A)))) R) as (IN & OW & A' & (bl & al & N1 & N2 & CT & WD & ALL) & SE & ON).
  - exact (prune_frame _ _ _ _ _ _ HC).
  - intros seq rest C. destruct (prune_spec _ _ _ _ _ _ limit C HL) as (bl & al & B1 & B2 & N1 & N2 & CT & ALL & S). cbv zeta in S. cbn [ob_mkt] in S. rewrite HC in S.
    remember (refund (refund oo Bid _) Ask _) as oox eqn:EOO in S. destruct S as [[S _]|(o1 & S & C1 & _)]; [discriminate|]. injection S as <- EQX. rewrite <- EQX in C1, EOO. clear EQX oox. eexists. split; [exact C1|]. exists bl, al.
    assert (M1 : NoDup bl) by (eapply NoDup_map_inv; exact N1). assert (M2 : NoDup al) by (eapply NoDup_map_inv; exact N2).
    assert (W : withdrawn m A x oo (cancelled_list m (cancelled_list m A Bid bl) Ask al) oo' bl al).
    { pose proof (withdrawn_list m A x oo Bid bl B1) as W1. cbv iota in W1.
      pose proof (withdrawn_list m (cancelled_list m A Bid bl) x (refund oo Bid (zsum (leaf_val m Bid) bl)) Ask al) as W2. cbv iota in W2.
      assert (E : book_of (cancelled_list m A Bid bl) Ask = book_of A Ask) by apply (cancelled_list_other m Bid bl A).
      rewrite E in W2. specialize (W2 B2). pose proof (withdrawn_app _ _ _ _ _ _ _ _ _ _ _ _ W1 W2) as W. rewrite app_nil_r in W. cbn [app] in W. rewrite EOO. exact W. }
    split; [assumption|]. split; [assumption|]. split; [exact CT|]. split; [exact W|]. intros LE.
    assert (F : nodes_for (zlen (a_asks A)) + nodes_for (zlen (a_bids A)) <= limit).
    { unfold nodes_for. pose proof (zlen_nonneg (a_asks A)). pose proof (zlen_nonneg (a_bids A)). destruct (zlen (a_asks A) =? 0), (zlen (a_bids A) =? 0); lia. }
    destruct (ALL F) as [F1 F2]. eapply withdrawn_perm; [| |exact W]; apply NoDup_Permutation; try assumption.
    + unfold own_orders. apply NoDup_filter, sorted_nodup, (cinv_sorted _ _ _ _ C Bid).
    + intros l. unfold own_orders. rewrite filter_In. split; [intros X; destruct (B1 _ X); split; [assumption|lia]|intros [X Y]; apply F1; [assumption|lia]].
    + unfold own_orders. apply NoDup_filter, sorted_nodup, (cinv_sorted _ _ _ _ C Ask).
    + intros l. unfold own_orders. rewrite filter_In. split; [intros X; destruct (B2 _ X); split; [assumption|lia]|intros [X Y]; apply F2; [assumption|lia]].
  - exists x, oo, bl, al. rewrite OW. split; [rewrite (key_at_map _ _ _ KM); reflexivity|]. split; [assumption|]. split; [rewrite (key_at_map _ _ _ KM); reflexivity|].
    split; [reflexivity|]. split; [apply sig_signs; assumption|]. split; [assumption|]. split; [assumption|]. split; [exact CT|]. split; [exists A', oo'; auto|]. intros LE. exists A', oo'. auto.
Qed.
(** The owner can always cancel: room for one event is all it takes. *)
Theorem cancel_succeeds c sd l x oo rest : In (x, oo) L -> In l (book_of A sd) -> l_owner l = x -> places e s m 1 ->
  exists s', process e c s (ICancelV2 sd (l_key l)) (mkMeta k false :: mkMeta (m_bids m) false :: mkMeta (m_asks m) false :: mkMeta x false :: mkMeta (oo_owner oo) true :: mkMeta (m_event_q m) false :: rest) = Ok s'.
Proof.
  intros IN IL OL (q & HQ & PL). pose proof (wi_str _ _ WI) as W. destruct (seen_state e s k m A L WI SN P) as (seq & o & MS). pose proof (sn_mkt _ _ _ _ _ _ SN) as HM.
  assert (LV : live (D s) k x oo) by (apply (ms_lists _ _ _ _ _ _ _ MS); exact IN).
  destruct (lists_take _ _ _ _ _ (ms_lists _ _ _ _ _ _ _ MS) LV) as (rst & PM & _). pose proof (cinv_perm _ _ _ _ _ PM (ms_inv _ _ _ _ _ _ _ MS)) as C.
  pose proof (cancel_v2_spec _ _ _ _ _ _ sd (l_key l) C) as S. rewrite (lfind_In _ _ l (cinv_sorted _ _ _ _ C sd) IL eq_refl), OL, Z.eqb_refl in S.
  assert (EQ : ob_eq o = q) by (pose proof (ms_evq _ _ _ _ _ _ _ MS); congruence).
  destruct S as [[_ F]|(o' & S & _)].
  - exfalso. pose proof (ci_rep _ _ _ _ C) as RP. pose proof (r_evs _ _ RP) as FL. rewrite EQ in F, FL. rewrite FL in PL. unfold zlen in *. rewrite map_length in PL. lia.
  - cbn [process]. unfold proc_cancel_v2, proc_cancel. cbn [mk mk_signer]. rewrite (load_market_any e s k m W HM). cbn [rbind]. unfold check_signer. cbn [mk_signer check rbind].
    rewrite (load_live_fwd e s k m W HM x oo) by (try assumption; intros ? [= <-]; reflexivity). cbn [rbind].
    rewrite (load_slab_fwd e s Bid _ _ (ms_bids _ _ _ _ _ _ _ MS)), (load_slab_fwd e s Ask _ _ (ms_asks _ _ _ _ _ _ _ MS)), (load_evq_fwd e s m _ HQ). cbn [rbind].
    assert (EO' : mkObs (ob_bids o) (ob_asks o) m q = o) by (destruct MS, o as [b1 a1 m1 q1]; cbn [ob_mkt ob_bids ob_asks ob_eq] in *; congruence).
    rewrite EO', S. cbn [rbind]. eauto.
Qed.
(** So can the prune authority, in one go, as long as the market is enabled. *)
Theorem prune_succeeds c limit x oo : has_flag (m_flags m) AF_Permissioned = true -> ~ disabled m -> In (x, oo) L -> 0 <= limit ->
  places e s m (Z.min limit (zlen (own_orders x (a_bids A)) + zlen (own_orders x (a_asks A)))) ->
  exists s', process e c s (IPrune limit) [mkMeta k false; mkMeta (m_bids m) false; mkMeta (m_asks m) false; mkMeta (m_prune_auth m) true; mkMeta x false; mkMeta (oo_owner oo) false; mkMeta (m_event_q m) false] = Ok s'.
Proof.
  intros PF NDI IN HL (q & HQ & PL). pose proof (wi_str _ _ WI) as W. destruct (seen_state e s k m A L WI SN P) as (seq & o & MS). pose proof (sn_mkt _ _ _ _ _ _ SN) as HM.
  assert (LV : live (D s) k x oo) by (apply (ms_lists _ _ _ _ _ _ _ MS); exact IN).
  destruct (lists_take _ _ _ _ _ (ms_lists _ _ _ _ _ _ _ MS) LV) as (rst & PM & _). pose proof (cinv_perm _ _ _ _ _ PM (ms_inv _ _ _ _ _ _ _ MS)) as C.
  destruct (prune_spec _ _ _ _ _ _ limit C HL) as (bl & al & B1 & B2 & N1 & N2 & CT & _ & S). cbv zeta in S.
  assert (EQ : ob_eq o = q) by (pose proof (ms_evq _ _ _ _ _ _ _ MS); congruence).
  destruct S as [[_ F]|(o' & S & _)].
  - exfalso. pose proof (ci_rep _ _ _ _ C) as RP. pose proof (r_evs _ _ RP) as FL. rewrite EQ in F, FL. rewrite FL in PL.
    assert (X : forall bk l, NoDup (map l_key l) -> (forall y, In y l -> In y bk /\ l_owner y = x) -> zlen l <= zlen (own_orders x bk)).
    { intros bk l N I. apply NoDup_map_inv in N. unfold zlen. apply inj_le. apply NoDup_incl_length; [assumption|]. intros y Hy. destruct (I y Hy). unfold own_orders. apply filter_In. split; [assumption|lia]. }
    pose proof (X _ _ N1 B1). pose proof (X _ _ N2 B2). unfold zlen in *. rewrite map_length in PL. lia.
  - cbn [process]. unfold proc_prune. unfold check_signer. cbn [mk mk_signer check rbind].
    assert (FE : check_market_flags (m_flags m) false = Ok tt).
    { apply flags_enabled; [exact (ws_flags _ W _ _ HM)|]. unfold disabled in NDI. destruct (Z.testbit (m_flags m) 7); [congruence|reflexivity]. }
    rewrite (load_market_fwd e s k m HM false FE). cbn [rbind]. unfold prune_authority. rewrite PF. cbn [opt_eqb]. rewrite Z.eqb_refl. cbn [check rbind].
    rewrite (load_live_fwd e s k m W HM x oo) by (try assumption; intros ? [= <-]; reflexivity). cbn [rbind].
    rewrite (load_slab_fwd e s Bid _ _ (ms_bids _ _ _ _ _ _ _ MS)), (load_slab_fwd e s Ask _ _ (ms_asks _ _ _ _ _ _ _ MS)), (load_evq_fwd e s m _ HQ). cbn [rbind].
    assert (EO' : mkObs (ob_bids o) (ob_asks o) m q = o) by (destruct MS, o as [b1 a1 m1 q1]; cbn [ob_mkt ob_bids ob_asks ob_eq] in *; congruence).
    rewrite EO', S. cbn [rbind]. eauto.
Qed.
End Effect.
