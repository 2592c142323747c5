(** What the loaders find in a world that satisfies the invariant, and what writing back changes. *)
From Coq Require Import Permutation.
From Verif Require Import Base BaseProofs Fees ListSum Queue QueueProofs Codec CodecProofs Critbit CritbitSlab Market Matching
  MatchSteps MatchRefine MatchAsk MatchBid MatchRun MatchSpec Ledger LedgerSteps LedgerRun Slots Core CoreInv CoreNew CoreCancel CoreConsume CoreSettle CoreFrame Instr InstrProofs
  Store Process StoreProofs World WorldInv.

Section Load.
Variable e : env.
Hypothesis EO : env_ok e.
Notation D := (dexd e).
Let NS : e_prog e <> spl_id := eo_spl e EO.

(** ** Loaders *)
Lemma load_market_ok s k b m : load_market e s k b = Ok m -> D s k = Some (DMarket m) /\ check_market_flags (m_flags m) b = Ok tt.
Proof.
  unfold load_market, dexd. destruct (a_data (sget s k)) as [|m0| | | | | | |]; try discriminate. intros H.
  apply rbind_ok in H. destruct H as (? & H1 & H). apply check_ok in H1. apply rbind_ok in H. destruct H as ([] & H2 & H). injection H as <-.
  rewrite H1. auto.
Qed.
(** A new open-orders account. *)
Definition oo_fresh (mkt owner : Z) : open_orders := mkOO OO_FLAGS mkt owner 0 0 0 0 U128_MAX 0 (repeat 0 128) (repeat 0 128) 0.
Definition opened (s : store) (m : market) (x : Z) (owner : option Z) (rent : option clock) (auth : option Z) (oo : open_orders) : Prop :=
  D s x = Some DZero /\ auth = oo_authority m /\ a_len (sget s x) = OO_LEN /\
  exists u c, owner = Some u /\ rent = Some c /\ c_exempt c (a_lamports (sget s x)) (a_len (sget s x)) = true /\ oo = oo_fresh (m_own m) u.
Lemma opt_eqb_eq a b : opt_eqb a b = true -> a = b.
Proof. destruct a, b; cbn; try discriminate; intros; [f_equal; lia|reflexivity]. Qed.
Lemma load_orders_ok s m k x owner rent auth oo : wstruct (D s) -> D s k = Some (DMarket m) -> load_orders e s m x owner rent auth = Ok oo ->
  (live (D s) k x oo \/ opened s m x owner rent auth oo) /\ (forall u, owner = Some u -> oo_owner oo = u).
Proof.
  intros W HM H. unfold load_orders in H. apply rbind_ok in H. destruct H as (? & HP & H). apply check_ok in HP.
  assert (DX : D s x = Some (a_data (sget s x))) by (unfold dexd; rewrite HP; reflexivity).
  apply rbind_ok in H. destruct H as (o0 & H0 & H). apply rbind_ok in H. destruct H as (o1 & H1 & H).
  apply rbind_ok in H. destruct H as (? & H2 & H). apply rbind_ok in H. destruct H as (? & H3 & H). apply check_ok in H3.
  apply rbind_ok in H. destruct H as (? & H4 & H). apply check_ok in H4. injection H as <-.
  assert (OWN : forall u, owner = Some u -> oo_owner o1 = u) by (intros u ->; lia). split; [|exact OWN].
  pose proof (ws_own _ W k m HM) as MO.
  destruct (a_data (sget s x)) as [|m0| | | |oo0| | |]; try discriminate.
  - right. destruct (Z.eqb_spec (a_len (sget s x)) OO_LEN) as [EL|]; [|discriminate]. injection H0 as <-. change (oo_flags oo_zero =? 0) with true in H1. cbv iota in H1.
    apply rbind_ok in H1. destruct H1 as (? & A1 & H1). apply check_ok in A1. apply opt_eqb_eq in A1.
    destruct rent as [c|]; [|discriminate]. destruct owner as [u|]; [|discriminate]. cbn [ok_or rbind] in H1.
    apply rbind_ok in H1. destruct H1 as (? & A2 & H1). apply check_ok in A2. unfold oo_init in H1. cbn [oo_zero oo_flags] in H1.
    change (check (0 =? 0) EAssert) with (Ok tt) in H1. cbn [rbind] in H1. injection H1 as <-.
    split; [assumption|]. split; [assumption|]. split; [assumption|]. exists u, c. auto.
  - left. injection H0 as <-. destruct (ws_oo _ W x oo0 DX) as [[F _]|F].
    + rewrite F in H1. change (OO_FLAGS =? 0) with false in H1. injection H1 as <-. split; [assumption|]. split; [assumption|]. lia.
    + rewrite F in H1. change (AF_Closed =? 0) with false in H1. cbv iota in H1. injection H1 as <-.
      unfold oo_check_flags in H2. rewrite F in H2. discriminate.
Qed.
Lemma side_eqb_ok a b : side_eqb a b = true -> a = b.
Proof. destruct a, b; (reflexivity || discriminate). Qed.
Lemma load_slab_ok s sd f k x : load_slab s sd f k = Ok x -> k = f /\ a_data (sget s k) = DSlab sd x.
Proof.
  unfold load_slab. intros H. apply rbind_ok in H. destruct H as (? & H1 & H). apply check_ok in H1.
  destruct (a_data (sget s k)) as [| | | |sd' y| | | |]; try discriminate.
  apply rbind_ok in H. destruct H as (? & H2 & H). apply check_ok in H2. apply side_eqb_ok in H2. injection H as <-. subst. split; [lia|reflexivity].
Qed.
Section Market.
Variables (s : store) (k : Z) (m : market).
Hypothesis (W : wstruct (D s)) (HM : D s k = Some (DMarket m)).
Lemma load_books_ok kb ka bids asks : load_slab s Bid (m_bids m) kb = Ok bids -> load_slab s Ask (m_asks m) ka = Ok asks ->
  m_bids m <> m_asks m /\ kb = m_bids m /\ ka = m_asks m /\ D s (m_bids m) = Some (DSlab Bid bids) /\ D s (m_asks m) = Some (DSlab Ask asks).
Proof.
  intros H1 H2. apply load_slab_ok in H1, H2. destruct H1 as [-> H1], H2 as [-> H2].
  destruct (ws_asks _ W k m HM) as (sl & HA). pose proof (dexd_owned _ _ _ _ HA) as [_ HA'].
  assert (N : m_bids m <> m_asks m) by (intros E; rewrite E in H1; congruence).
  destruct (ws_bids _ W k m HM N) as (sl2 & HB). pose proof (dexd_owned _ _ _ _ HB) as [_ HB'].
  split; [assumption|]. split; [reflexivity|]. split; [reflexivity|]. split; congruence.
Qed.
Lemma load_req_ok x rq : load_req_q s m x = Ok rq -> x = m_req_q m /\ D s (m_req_q m) = Some (DReqQ rq).
Proof.
  unfold load_req_q. intros H. apply rbind_ok in H. destruct H as (? & H1 & H). apply check_ok in H1. assert (x = m_req_q m) by lia. subst x.
  destruct (ws_req _ W k m HM) as (r & HR). pose proof (dexd_owned _ _ _ _ HR) as [_ HR']. rewrite HR' in H. injection H as <-. auto.
Qed.
Lemma load_evq_ok x q : load_event_q s m x = Ok q -> x = m_event_q m /\ D s (m_event_q m) = Some (DEventQ q).
Proof.
  unfold load_event_q. intros H. apply rbind_ok in H. destruct H as (? & H1 & H). apply check_ok in H1. assert (x = m_event_q m) by lia. subst x.
  destruct (ws_evq _ W k m HM) as (r & HR). pose proof (dexd_owned _ _ _ _ HR) as [_ HR']. rewrite HR' in H. injection H as <-. auto.
Qed.
End Market.
Lemma load_token_ok s k t : load_token s k = Ok t -> token_at s k = Some t /\ a_len (sget s k) = 165 /\ t_state t = 1.
Proof.
  unfold load_token, token_at. intros H. apply rbind_ok in H. destruct H as (? & H1 & H). apply check_ok in H1. rewrite H1.
  apply rbind_ok in H. destruct H as (? & H2 & H). apply check_ok in H2. destruct (a_data (sget s k)); try discriminate.
  apply rbind_ok in H. destruct H as (? & H3 & H). apply check_ok in H3. injection H as <-. split; [reflexivity|]. split; lia.
Qed.
Lemma load_coin_vault_ok s m k t : load_coin_vault s m k = Ok t -> k = m_coin_vault m /\ token_at s k = Some t.
Proof.
  unfold load_coin_vault. intros H. apply rbind_ok in H. destruct H as (? & H1 & H). apply load_token_ok in H1.
  apply rbind_ok in H. destruct H as (? & H2 & H). apply check_ok in H2. injection H as <-. split; [lia|tauto].
Qed.
Lemma load_pc_vault_ok s m k t : load_pc_vault s m k = Ok t -> k = m_pc_vault m /\ token_at s k = Some t.
Proof.
  unfold load_pc_vault. intros H. apply rbind_ok in H. destruct H as (? & H1 & H). apply load_token_ok in H1.
  apply rbind_ok in H. destruct H as (? & H2 & H). apply check_ok in H2. injection H as <-. split; [lia|tauto].
Qed.
Lemma vault_signer_ok m k : check_vault_signer e m k = Ok tt -> e_pda e (m_nonce m) (m_own m) = Some k.
Proof.
  unfold check_vault_signer. destruct (e_pda e (m_nonce m) (m_own m)) as [p|]; [|discriminate]. cbn [ok_or rbind]. intros H. apply check_ok in H. f_equal. lia.
Qed.

(** ** Account lists *)
Lemma lists_take d k L a oo : lists d k L -> live d k a oo ->
  exists rest, Permutation L ((a, oo) :: rest) /\ NoDup (map fst rest) /\ ~ In a (map fst rest) /\
    forall y oy, In (y, oy) rest <-> y <> a /\ live d k y oy.
Proof.
  intros [ND IN] LV. apply IN in LV. apply in_split in LV. destruct LV as (l1 & l2 & ->). exists (l1 ++ l2).
  assert (P : Permutation (l1 ++ (a, oo) :: l2) ((a, oo) :: l1 ++ l2)) by (symmetry; apply Permutation_middle).
  split; [exact P|]. assert (ND' : NoDup (a :: map fst (l1 ++ l2))) by (apply (Permutation_NoDup (Permutation_map fst P)); exact ND).
  inversion ND' as [|? ? N1 N2]; subst. split; [assumption|]. split; [assumption|]. intros y oy. rewrite <- IN. split.
  - intros H. split; [|apply in_or_app; apply in_app_or in H; cbn [In]; tauto].
    intros ->. apply N1. change a with (fst (a, oy)). apply in_map. exact H.
  - intros [N H]. apply in_or_app. apply in_app_or in H. cbn [In] in H. destruct H as [H|[H|H]]; [auto| |auto]. congruence.
Qed.
Lemma lists_put d d' k a oo' rest : NoDup (map fst rest) -> (forall y oy, In (y, oy) rest <-> y <> a /\ live d k y oy) ->
  (forall y oy, y <> a -> live d' k y oy <-> live d k y oy) -> live d' k a oo' -> lists d' k ((a, oo') :: rest).
Proof.
  intros ND IN LV LA. split.
  - cbn [map fst]. constructor; [|assumption]. intros H. apply in_map_iff in H. destruct H as ([y oy] & E & H). cbn [fst] in E. subst y. apply IN in H. tauto.
  - intros y oy. cbn [In]. rewrite IN. split.
    + intros [[= <- <-]|[N H]]; [exact LA|]. apply LV; assumption.
    + intros H. destruct (Z.eq_dec y a) as [->|N]; [left; destruct LA as (LA & _), H as (H & _); congruence|right; split; [assumption|]]. apply (LV y oy N). assumption.
Qed.
Lemma lists_drop d d' k a rest : NoDup (map fst rest) -> (forall y oy, In (y, oy) rest <-> y <> a /\ live d k y oy) ->
  (forall y oy, y <> a -> live d' k y oy <-> live d k y oy) -> (forall oy, ~ live d' k a oy) -> lists d' k rest.
Proof.
  intros ND IN LV LA. split; [assumption|]. intros y oy. rewrite IN. split.
  - intros [N H]. apply LV; assumption.
  - intros H. destruct (Z.eq_dec y a) as [->|N]; [destruct (LA _ H)|]. split; [assumption|]. apply (LV y oy N). assumption.
Qed.
Lemma lists_none d k L a : lists d k L -> (forall oy, ~ live d k a oy) ->
  ~ In a (map fst L) /\ forall y oy, In (y, oy) L <-> y <> a /\ live d k y oy.
Proof.
  intros [ND IN] N. assert (NI : ~ In a (map fst L)).
  { intros H. apply in_map_iff in H. destruct H as ([y oy] & E & H). cbn [fst] in E. subst y. apply IN in H. exact (N _ H). }
  split; [assumption|]. intros y oy. rewrite IN. split; [|tauto]. intros H. split; [|assumption]. intros ->. exact (N _ H).
Qed.
Lemma lists_same d d' k L : (forall y oy, live d' k y oy <-> live d k y oy) -> lists d k L -> lists d' k L.
Proof. intros H [ND IN]. split; [assumption|]. intros y oy. rewrite H. apply IN. Qed.

(** ** Stores that agree on everything but the dex's data *)
Record quiet (s s' : store) : Prop := mkQuiet {
  qu_tok : forall x, token_at s' x = token_at s x; qu_len : forall x, a_len (sget s' x) = a_len (sget s x);
  qu_prog : forall x, a_prog (sget s' x) = a_prog (sget s x); qu_lam : forall x, a_lamports (sget s' x) = a_lamports (sget s x) }.
Lemma quiet_refl s : quiet s s. Proof. constructor; reflexivity. Qed.
Lemma quiet_trans a b c : quiet a b -> quiet b c -> quiet a c.
Proof. intros [] []. constructor; intros; congruence. Qed.
Lemma quiet_put s k d d0 : D s k = Some d0 -> quiet s (put_data s k d).
Proof. intros H. constructor; intros; [eapply token_put; eassumption|apply put_len|apply put_prog|apply put_lam]. Qed.
Lemma quiet_tdelta s s' : quiet s s' -> tdelta s s' (fun _ _ => 0).
Proof. intros []. apply tdelta_refl; assumption. Qed.
Lemma quiet_amounts s s' : quiet s s' -> amounts_ok s -> amounts_ok s'.
Proof. intros [] A k t H. rewrite qu_tok0 in H. exact (A _ _ H). Qed.

(** ** Writing back one market's accounts and possibly one open-orders account *)
Definition overlay (s : store) (k : Z) (m : market) (o : obs) (rq : Z * Z) (x : option (Z * open_orders)) (y : Z) : option adata :=
  if y =? k then Some (DMarket (ob_mkt o))
  else if y =? m_bids m then Some (DSlab Bid (ob_bids o))
  else if y =? m_asks m then Some (DSlab Ask (ob_asks o))
  else if y =? m_event_q m then Some (DEventQ (ob_eq o))
  else if y =? m_req_q m then Some (DReqQ rq)
  else match x with Some (a, oo) => if y =? a then Some (DOO oo) else D s y | None => D s y end.
Definition touchable (s : store) (k a : Z) : Prop := D s a = Some DZero \/ exists oo, live (D s) k a oo.
Definition oo_next (k : Z) (oo : open_orders) : Prop := (oo_flags oo = OO_FLAGS /\ oo_market oo = k) \/ oo_flags oo = AF_Closed.

Section Over.
Variables (s : store) (k : Z) (m : market) (bids asks : slab) (q : queue event) (rq : Z * Z).
Hypothesis (W : wstruct (D s)) (HM : D s k = Some (DMarket m)) (NB : m_bids m <> m_asks m)
  (HB : D s (m_bids m) = Some (DSlab Bid bids)) (HA : D s (m_asks m) = Some (DSlab Ask asks))
  (HQ : D s (m_event_q m) = Some (DEventQ q)) (HR : D s (m_req_q m) = Some (DReqQ rq)).
Lemma over_distinct : k <> m_bids m /\ k <> m_asks m /\ k <> m_event_q m /\ k <> m_req_q m /\
  m_bids m <> m_event_q m /\ m_bids m <> m_req_q m /\ m_asks m <> m_event_q m /\ m_asks m <> m_req_q m /\ m_event_q m <> m_req_q m.
Proof. repeat split; intros E; rewrite E in *; congruence. Qed.
Lemma touch_distinct a : touchable s k a -> a <> k /\ a <> m_bids m /\ a <> m_asks m /\ a <> m_event_q m /\ a <> m_req_q m /\ a <> 0.
Proof. pose proof (ws_zero _ W) as WZ. intros [T|(oo & T & _)]; repeat split; intros E; subst a; congruence. Qed.
Lemma write_obs_D o' y : D (write_obs s k (m_bids m) (m_asks m) (m_event_q m) o') y = overlay s k m o' rq None y.
Proof.
  destruct over_distinct as (n1 & n2 & n3 & n4 & n5 & n6 & n7 & n8 & n9). unfold write_obs, overlay.
  assert (H1 : forall x, D (put_data s k (DMarket (ob_mkt o'))) x = if x =? k then Some (DMarket (ob_mkt o')) else D s x) by (intros; eapply dexd_put_owned; eassumption).
  set (s1 := put_data s k _) in *.
  assert (H2 : forall x, D (put_data s1 (m_bids m) (DSlab Bid (ob_bids o'))) x = if x =? m_bids m then Some (DSlab Bid (ob_bids o')) else D s1 x)
    by (intros; eapply dexd_put_owned; rewrite H1; replace (m_bids m =? k) with false by lia; eassumption).
  set (s2 := put_data s1 _ _) in *.
  assert (H3 : forall x, D (put_data s2 (m_asks m) (DSlab Ask (ob_asks o'))) x = if x =? m_asks m then Some (DSlab Ask (ob_asks o')) else D s2 x).
  { intros; eapply dexd_put_owned. rewrite H2, H1. replace (m_asks m =? m_bids m) with false by lia. replace (m_asks m =? k) with false by lia. eassumption. }
  set (s3 := put_data s2 _ _) in *.
  rewrite (dexd_put_owned e s3 (m_event_q m) _ y (DEventQ q)).
  2: { rewrite H3, H2, H1. replace (m_event_q m =? m_asks m) with false by lia. replace (m_event_q m =? m_bids m) with false by lia. replace (m_event_q m =? k) with false by lia. assumption. }
  rewrite H3, H2, H1.
  destruct (Z.eqb_spec y k) as [->|]; [replace (k =? m_event_q m) with false by lia; replace (k =? m_asks m) with false by lia; replace (k =? m_bids m) with false by lia; reflexivity|].
  destruct (Z.eqb_spec y (m_bids m)) as [->|]; [replace (m_bids m =? m_event_q m) with false by lia; replace (m_bids m =? m_asks m) with false by lia; reflexivity|].
  destruct (Z.eqb_spec y (m_asks m)) as [->|]; [replace (m_asks m =? m_event_q m) with false by lia; reflexivity|].
  destruct (Z.eqb_spec y (m_event_q m)); [reflexivity|]. destruct (Z.eqb_spec y (m_req_q m)) as [->|]; [assumption|reflexivity].
Qed.
Lemma write_obs_quiet o' : quiet s (write_obs s k (m_bids m) (m_asks m) (m_event_q m) o').
Proof.
  destruct over_distinct as (n1 & n2 & n3 & n4 & n5 & n6 & n7 & n8 & n9). unfold write_obs.
  assert (H1 : forall x, D (put_data s k (DMarket (ob_mkt o'))) x = if x =? k then Some (DMarket (ob_mkt o')) else D s x) by (intros; eapply dexd_put_owned; eassumption).
  pose proof (quiet_put _ _ (DMarket (ob_mkt o')) _ HM) as Q1. set (s1 := put_data s k _) in *.
  assert (B1 : D s1 (m_bids m) = Some (DSlab Bid bids)) by (rewrite H1; replace (m_bids m =? k) with false by lia; assumption).
  assert (H2 : forall x, D (put_data s1 (m_bids m) (DSlab Bid (ob_bids o'))) x = if x =? m_bids m then Some (DSlab Bid (ob_bids o')) else D s1 x)
    by (intros; eapply dexd_put_owned; eassumption).
  pose proof (quiet_put _ _ (DSlab Bid (ob_bids o')) _ B1) as Q2. set (s2 := put_data s1 _ _) in *.
  assert (B2 : D s2 (m_asks m) = Some (DSlab Ask asks)) by (rewrite H2, H1; replace (m_asks m =? m_bids m) with false by lia; replace (m_asks m =? k) with false by lia; assumption).
  assert (H3 : forall x, D (put_data s2 (m_asks m) (DSlab Ask (ob_asks o'))) x = if x =? m_asks m then Some (DSlab Ask (ob_asks o')) else D s2 x)
    by (intros; eapply dexd_put_owned; eassumption).
  pose proof (quiet_put _ _ (DSlab Ask (ob_asks o')) _ B2) as Q3. set (s3 := put_data s2 _ _) in *.
  assert (B3 : D s3 (m_event_q m) = Some (DEventQ q)).
  { rewrite H3, H2, H1. replace (m_event_q m =? m_asks m) with false by lia. replace (m_event_q m =? m_bids m) with false by lia. replace (m_event_q m =? k) with false by lia. assumption. }
  pose proof (quiet_put _ _ (DEventQ (ob_eq o')) _ B3) as Q4. eauto using quiet_trans.
Qed.
Lemma put_req_D s1 o' rq' y : (forall y, D s1 y = overlay s k m o' rq None y) -> D (put_data s1 (m_req_q m) (DReqQ rq')) y = overlay s k m o' rq' None y.
Proof.
  intros H. destruct over_distinct as (n1 & n2 & n3 & n4 & n5 & n6 & n7 & n8 & n9).
  assert (R : D s1 (m_req_q m) = Some (DReqQ rq)).
  { rewrite H. unfold overlay. replace (m_req_q m =? k) with false by lia. replace (m_req_q m =? m_bids m) with false by lia. replace (m_req_q m =? m_asks m) with false by lia.
    replace (m_req_q m =? m_event_q m) with false by lia. rewrite Z.eqb_refl. reflexivity. }
  rewrite (dexd_put_owned _ _ _ _ _ _ R), H. unfold overlay.
  destruct (Z.eqb_spec y (m_req_q m)) as [->|]; [|reflexivity].
  replace (m_req_q m =? k) with false by lia. replace (m_req_q m =? m_bids m) with false by lia. replace (m_req_q m =? m_asks m) with false by lia.
  replace (m_req_q m =? m_event_q m) with false by lia. reflexivity.
Qed.
Lemma over_touch s1 o' rq' a : touchable s k a -> (forall y, D s1 y = overlay s k m o' rq' None y) -> D s1 a = D s a.
Proof.
  intros T H. destruct (touch_distinct a T) as (t1 & t2 & t3 & t4 & t5 & t6). rewrite H. unfold overlay.
  replace (a =? k) with false by lia. replace (a =? m_bids m) with false by lia. replace (a =? m_asks m) with false by lia.
  replace (a =? m_event_q m) with false by lia. replace (a =? m_req_q m) with false by lia. reflexivity.
Qed.
Lemma touch_some a : touchable s k a -> exists d, D s a = Some d.
Proof. intros [T|(oo & T & _)]; eauto. Qed.
Lemma put_oo_D s1 o' rq' a oo' y : touchable s k a -> (forall y, D s1 y = overlay s k m o' rq' None y) ->
  D (put_data s1 a (DOO oo')) y = overlay s k m o' rq' (Some (a, oo')) y.
Proof.
  intros T H. destruct (touch_some a T) as (d & TD). destruct (touch_distinct a T) as (t1 & t2 & t3 & t4 & t5 & t6).
  rewrite (dexd_put_owned _ _ _ _ _ d) by (rewrite (over_touch _ _ _ _ T H); exact TD). rewrite H. unfold overlay.
  destruct (Z.eqb_spec y a) as [->|]; [|reflexivity].
  replace (a =? k) with false by lia. replace (a =? m_bids m) with false by lia. replace (a =? m_asks m) with false by lia.
  replace (a =? m_event_q m) with false by lia. replace (a =? m_req_q m) with false by lia. reflexivity.
Qed.
Lemma same_links_sm m' : same_market m m' -> same_links m m'.
Proof. intros E. rewrite E. unfold same_links. cbn [set_counters m_own m_nonce m_bids m_asks m_req_q m_event_q m_coin_vault m_pc_vault m_coin_mint m_pc_mint m_coin_lot m_pc_lot]. tauto. Qed.

Section Result.
Variables (s' : store) (o' : obs) (rq' : Z * Z) (x : option (Z * open_orders)).
Hypothesis (HD : forall y, D s' y = overlay s k m o' rq' x y) (SM : same_links m (ob_mkt o')) (FL : check_market_flags (m_flags (ob_mkt o')) true = Ok tt)
  (HX : forall a oo', x = Some (a, oo') -> touchable s k a /\ oo_next k oo').
Lemma over_at : D s' k = Some (DMarket (ob_mkt o')) /\ D s' (m_bids m) = Some (DSlab Bid (ob_bids o')) /\ D s' (m_asks m) = Some (DSlab Ask (ob_asks o')) /\
  D s' (m_event_q m) = Some (DEventQ (ob_eq o')) /\ D s' (m_req_q m) = Some (DReqQ rq').
Proof.
  destruct over_distinct as (n1 & n2 & n3 & n4 & n5 & n6 & n7 & n8 & n9). rewrite !HD. unfold overlay.
  rewrite !Z.eqb_refl. replace (m_bids m =? k) with false by lia. replace (m_asks m =? k) with false by lia. replace (m_asks m =? m_bids m) with false by lia.
  replace (m_event_q m =? k) with false by lia. replace (m_event_q m =? m_bids m) with false by lia. replace (m_event_q m =? m_asks m) with false by lia.
  replace (m_req_q m =? k) with false by lia. replace (m_req_q m =? m_bids m) with false by lia. replace (m_req_q m =? m_asks m) with false by lia. replace (m_req_q m =? m_event_q m) with false by lia.
  auto.
Qed.
Lemma over_dstep : dstep (D s) (D s') k m (ob_mkt o').
Proof.
  destruct over_at as (a1 & a2 & a3 & a4 & a5). constructor; try assumption; try (intros; eauto).
  rewrite HD. unfold overlay. replace (x0 =? k) with false by lia. replace (x0 =? m_bids m) with false by lia. replace (x0 =? m_asks m) with false by lia.
  replace (x0 =? m_event_q m) with false by lia. replace (x0 =? m_req_q m) with false by lia. destruct x as [[a oo']|] eqn:EX; [|auto].
  destruct (Z.eqb_spec x0 a) as [->|]; [|auto]. right. destruct (HX a oo' eq_refl) as [T N]. split; [exact T|]. exists oo'. split; [reflexivity|exact N].
Qed.
Lemma over_live y oy : (forall a oo', x = Some (a, oo') -> y <> a) -> live (D s') k y oy <-> live (D s) k y oy.
Proof.
  intros N. unfold live. rewrite HD. unfold overlay.
  destruct (Z.eqb_spec y k) as [->|]; [split; intros (E & _); congruence|].
  destruct (Z.eqb_spec y (m_bids m)) as [->|]; [split; intros (E & _); congruence|].
  destruct (Z.eqb_spec y (m_asks m)) as [->|]; [split; intros (E & _); congruence|].
  destruct (Z.eqb_spec y (m_event_q m)) as [->|]; [split; intros (E & _); congruence|].
  destruct (Z.eqb_spec y (m_req_q m)) as [->|]; [split; intros (E & _); congruence|].
  destruct x as [[a oo']|]; [|reflexivity]. replace (y =? a) with false by (specialize (N a oo' eq_refl); lia). reflexivity.
Qed.
Lemma over_oo a oo' : x = Some (a, oo') -> D s' a = Some (DOO oo').
Proof.
  intros E. destruct (HX a oo' E) as [T _]. destruct (touch_distinct a T) as (t1 & t2 & t3 & t4 & t5 & t6). rewrite HD. unfold overlay. rewrite E.
  replace (a =? k) with false by lia. replace (a =? m_bids m) with false by lia. replace (a =? m_asks m) with false by lia.
  replace (a =? m_event_q m) with false by lia. replace (a =? m_req_q m) with false by lia. rewrite Z.eqb_refl. reflexivity.
Qed.
(** The state of the market afterwards. *)
Lemma over_mstate seq L A : rq' = (0, seq) -> lists (D s') k L -> cinv o' seq L A -> mstate (D s') k (ob_mkt o') seq L A o'.
Proof.
  intros E HL C. destruct over_at as (a1 & a2 & a3 & a4 & a5). destruct SM as (l1 & l2 & l3 & l4 & l5 & l6 & _).
  constructor; rewrite ?l3, ?l4, ?l5, ?l6; try assumption; [reflexivity|rewrite <- E; assumption].
Qed.
End Result.
End Over.
End Load.
