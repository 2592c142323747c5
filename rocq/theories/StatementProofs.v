(** The statement of an account (C66). *)
From Coq Require Import Permutation.
From Verif Require Import Base BaseProofs Fees ListSum Queue QueueProofs Codec CodecProofs Critbit CritbitProofs CritbitSlab Market Matching MatchSteps MatchSpec MatchFacts MatchReport MatchRefine MatchAsk MatchBid MatchRun Ledger LedgerSums LedgerSteps Slots
  Core CoreInv CoreNew CoreOrder CoreCancel CoreConsume CoreSettle CoreFrame Instr InstrProofs Store Process StoreProofs World WorldInv WorldLoad WorldRun WorldStep WorldStep2 WorldConsume WorldInit WorldMain WorldSpec WorldFacts
  WorldRange WorldCancel WorldPay WorldTrade WorldCrank WorldOpen WorldAuth WorldRights WorldSizes WorldIsolate WorldSupply LifeSpec LifeProofs LifeSteps LifeMain AbsentSpec AbsentProofs StatementSpec.

(** ** The events of an incoming order *)
Section Incoming.
Variables (cl pl : Z) (k : taker).
Hypothesis NS : tk_silent k = false.
Notation mine E := (events_of (tk_owner k) E).
Definition coin_got (x : round) : Z := match tk_side k with Bid => tr_coin k x * cl | Ask => - (tr_coin k x * cl) end.
Definition pc_got (x : round) : Z := match tk_side k with Bid => - (tr_value pl k x + tr_fee pl k x) | Ask => tr_value pl k x - tr_fee pl k x end.
Lemma self_owner x : self k x = (l_owner (fst x) =? tk_owner k).
Proof. unfold self. lia. Qed.
Lemma round_sums x g : reported cl pl k x g ->
  zsum coin_move (mine g) = 0 /\ zsum pc_move (mine g) = 0 /\ zsum coin_trade (mine g) = coin_got x /\ zsum pc_trade (mine g) = pc_got x.
Proof.
  destruct x as [b t]. unfold reported, coin_got, pc_got, tr_coin, tr_value, tr_fee. pose proof (self_owner (b, t)) as SO. cbn [fst] in SO. destruct (self k (b, t)) eqn:S; symmetry in SO.
  - intros (u & s & ->). cbn [events_of filter ev_owner maker_out taker_out]. rewrite SO, Z.eqb_refl. cbn. destruct (tk_side k); lia.
  - intros (ft & rest & -> & R). rewrite NS.
    assert (MF : ev_owner (maker_fill cl pl k (b, t) ft) = l_owner b) by (unfold maker_fill; destruct (tk_side k); reflexivity).
    assert (TF : ev_owner (taker_fill cl pl k (b, t)) = tk_owner k) by (unfold taker_fill; destruct (tk_side k); reflexivity).
    assert (E : mine (maker_fill cl pl k (b, t) ft :: (if t =? l_qty b then [maker_out (other (tk_side k)) 0 0 b] else []) ++ taker_fill cl pl k (b, t) :: rest) = taker_fill cl pl k (b, t) :: mine rest).
    { unfold events_of. cbn [filter]. rewrite MF, SO. destruct (t =? l_qty b); cbn [app filter ev_owner maker_out]; rewrite ?SO, TF, Z.eqb_refl; reflexivity. }
    rewrite E. assert (Z0 : zsum coin_move (mine rest) = 0 /\ zsum pc_move (mine rest) = 0 /\ zsum coin_trade (mine rest) = 0 /\ zsum pc_trade (mine rest) = 0).
    { destruct R as [->|(u & ->)]; [cbn; auto|]. cbn [events_of filter ev_owner taker_out]. rewrite Z.eqb_refl. cbn. auto. }
    destruct Z0 as (z1 & z2 & z3 & z4). cbn [zsum]. rewrite z1, z2, z3, z4. unfold taker_fill. destruct (tk_side k); cbn [coin_move pc_move coin_trade pc_trade snd]; lia.
Qed.
Lemma rounds_sums tr gs : Forall2 (reported cl pl k) tr gs ->
  zsum coin_move (mine (concat gs)) = 0 /\ zsum pc_move (mine (concat gs)) = 0 /\ zsum coin_trade (mine (concat gs)) = zsum coin_got tr /\ zsum pc_trade (mine (concat gs)) = zsum pc_got tr.
Proof.
  induction 1 as [|x g tr gs R F IH]; [cbn; auto|]. destruct (round_sums x g R) as (r1 & r2 & r3 & r4). destruct IH as (i1 & i2 & i3 & i4). cbn [concat zsum]. rewrite events_app, !zsum_app. lia.
Qed.
End Incoming.
Lemma nofill_sums x E : (forall v, In v E -> is_fill v = false) ->
  zsum coin_move (events_of x E) = 0 /\ zsum pc_move (events_of x E) = 0 /\ zsum coin_trade (events_of x E) = 0 /\ zsum pc_trade (events_of x E) = 0.
Proof.
  intros N. unfold events_of. induction E as [|v E IH]; [cbn; auto|]. destruct (IH (fun w I => N w (or_intror I))) as (I1 & I2 & I3 & I4). specialize (N v (or_introl eq_refl)). cbn [filter]. destruct (ev_owner v =? x); [|auto].
  cbn [zsum]. rewrite I1, I2, I3, I4. destruct v; [discriminate|]. cbn. destruct sd; auto.
Qed.
Lemma got_sums cl pl k tr : zsum (coin_got cl k) tr = (match tk_side k with Bid => 1 | Ask => -1 end) * (zsum (tr_coin k) tr * cl) /\
  zsum (pc_got pl k) tr = match tk_side k with Bid => - (zsum (tr_value pl k) tr + zsum (tr_fee pl k) tr) | Ask => zsum (tr_value pl k) tr - zsum (tr_fee pl k) tr end.
Proof. induction tr as [|x tr [I1 I2]]; [cbn [zsum]; destruct (tk_side k); lia|]. cbn [zsum]. rewrite I1, I2. unfold coin_got, pc_got. destruct (tk_side k); lia. Qed.
Lemma story_trades m sd l q r q' : story m sd l q r q' -> forall v, In v r -> coin_trade v = coin_move v /\ pc_trade v = pc_move v.
Proof.
  induction 1 as [q|q n t r q1 N S IH|q n r q1 N S IH|q t N|q g N]; intros v I; cbn [In] in I; repeat (destruct I as [I|I]); try contradiction; try (apply IH; exact I); subst v; unfold traded, released; destruct sd; cbn; auto.
Qed.

Section Main.
Variable e : env.
Hypothesis EO : env_ok e.
Notation D := (dexd e).
Notation acct := (Z * open_orders)%type.

Definition vaulted (s : store) (m : market) : Prop := token_at s (m_coin_vault m) <> None /\ token_at s (m_pc_vault m) <> None.
Lemma paid_in s s' src dst dep v : moves s s' [(src, dst, dep)] -> dep = 0 \/ src <> v -> token_at s v <> None ->
  token_at s' v <> None /\ balance s' v = balance s v + (if v =? dst then dep else 0).
Proof.
  intros M N T. specialize (M v). unfold balance. destruct (token_at s v) as [t|]; [|contradiction]. destruct M as (t' & -> & _ & _ & _ & ->). split; [discriminate|]. cbn [zsum got]. destruct (Z.eqb_spec v src) as [E|E]; destruct (v =? dst); destruct N as [N|N]; try (exfalso; congruence); lia.
Qed.
Lemma orders_sums s s' k m A L ix t x payer oo : seen e s k m A L -> orders e s s' k m A L ix t x payer oo -> ~ is_pda e (oo_owner oo) -> m_coin_vault m <> m_pc_vault m -> vaulted s m -> exists m' A' L' oo' E,
  seen e s' k m' A' L' /\ (exists a b c d, m' = set_counters m a b c d) /\ In (x, oo') L' /\ a_evs A' = a_evs A ++ E /\ oo_owner oo' = oo_owner oo /\ vaulted s' m /\
  zsum coin_move (events_of x E) = 0 /\ zsum pc_move (events_of x E) = 0 /\
  oo_coin_total oo' = oo_coin_total oo + (balance s' (m_coin_vault m) - balance s (m_coin_vault m)) + zsum coin_trade (events_of x E) /\
  oo_pc_total oo' = oo_pc_total oo + (balance s' (m_pc_vault m) - balance s (m_pc_vault m)) + zsum pc_trade (events_of x E).
Proof.
  intros SN (m' & A' & L' & oo' & tr & q' & n & E & slot & id & dep & OD) ND NV [V1 V2].
  assert (SL : exists sl, D s (match oi_side ix with Bid => m_bids m | Ask => m_asks m end) = Some (DSlab (oi_side ix) sl)) by (destruct (sn_bids _ _ _ _ _ _ SN) as (sb & HB & _), (sn_asks _ _ _ _ _ _ SN) as (sa & HA & _); destruct (oi_side ix); eauto). destruct SL as (sl & SL).
  cbv zeta in OD. destruct OD as (_ & _ & SN' & LL & EV & RP & (_ & _ & OW) & _ & _ & (_ & _ & PY) & MM).
  specialize (RP sl SL). destruct RP as [_ _ _ (gs & Eend & EE & RE & FI) _]. set (tk := mkTaker (oi_side ix) id x slot t (oi_cid ix) (oi_st ix) false) in *.
  destruct (rounds_sums (m_coin_lot m) (m_pc_lot m) tk eq_refl tr gs RE) as (r1 & r2 & r3 & r4). assert (NF : forall v, In v Eend -> is_fill v = false) by (eapply (LifeProofs.finish_nofill m tk); exact FI). destruct (nofill_sums x Eend NF) as (f1 & f2 & f3 & f4).
  change (tk_owner tk) with x in *. destruct (got_sums (m_coin_lot m) (m_pc_lot m) tk tr) as [g1 g2]. change (tk_side tk) with (oi_side ix) in *.
  exists m', A', L', oo', E. split; [exact SN'|].
  assert (SC : exists a b c d, m' = set_counters m a b c d) by (destruct (oi_side ix); destruct MM as (_ & _ & _ & _ & ->); do 4 eexists; reflexivity).
  split; [exact SC|]. split; [apply LL; auto|]. split; [exact EV|]. split; [exact OW|].
  assert (NC : (dep = 0 \/ payer <> m_coin_vault m) /\ (dep = 0 \/ payer <> m_pc_vault m)) by (destruct PY as [->|[PY|[PY1 PY2]]]; [auto|contradiction|auto]). destruct NC as [NC NP].
  rewrite EE, events_app, !zsum_app. clear - r1 r2 r3 r4 f1 f2 f3 f4 g1 g2 MM NC NP V1 V2 NV.
  destruct (oi_side ix); destruct MM as (_ & _ & (b1 & b2 & b3 & b4 & b5) & MV & _).
  - destruct (paid_in _ _ _ _ _ _ MV NC V1) as [P1 P2]. destruct (paid_in _ _ _ _ _ _ MV NP V2) as [P3 P4]. rewrite Z.eqb_refl in P4. destruct (Z.eqb_spec (m_coin_vault m) (m_pc_vault m)); [contradiction|]. unfold vaulted. repeat split; try assumption; lia.
  - destruct (paid_in _ _ _ _ _ _ MV NC V1) as [P1 P2]. destruct (paid_in _ _ _ _ _ _ MV NP V2) as [P3 P4]. rewrite Z.eqb_refl in P2. destruct (Z.eqb_spec (m_pc_vault m) (m_coin_vault m)); [congruence|]. unfold vaulted. repeat split; try assumption; lia.
Qed.
Lemma same_acct s k m A L m' A' L' x oo oo' : seen e s k m A L -> seen e s k m' A' L' -> In (x, oo) L -> In (x, oo') L' -> oo' = oo.
Proof. intros S1 S2 I1 I2. apply (sn_oos _ _ _ _ _ _ S1) in I1. apply (sn_oos _ _ _ _ _ _ S2) in I2. destruct I1 as (I1 & _), I2 as (I2 & _). congruence. Qed.
Lemma placing_sums k x payer w dc s ixs s' : placing e k x payer w dc s ixs s' -> ~ is_pda e w -> forall m A L oo, seen e s k m A L -> In (x, oo) L -> oo_owner oo = w -> m_coin_vault m <> m_pc_vault m -> vaulted s m -> exists m' A' L' oo' E,
  seen e s' k m' A' L' /\ In (x, oo') L' /\ a_evs A' = a_evs A ++ E /\
  zsum coin_move (events_of x E) = 0 /\ zsum pc_move (events_of x E) = 0 /\
  oo_coin_total oo' = oo_coin_total oo + (balance s' (m_coin_vault m) - balance s (m_coin_vault m)) + zsum coin_trade (events_of x E) /\
  oo_pc_total oo' = oo_pc_total oo + (balance s' (m_pc_vault m) - balance s (m_pc_vault m)) + zsum pc_trade (events_of x E).
Proof.
  induction 1 as [s|s s1 s2 m0 A0 L0 oo0 t ix r S0 I0 O0 T OD PL IH]; intros NP m A L oo SN IX OW NV VT.
  - exists m, A, L, oo, []. split; [exact SN|]. split; [exact IX|]. split; [rewrite app_nil_r; reflexivity|]. cbn [events_of filter zsum]. lia.
  - destruct (seen_same e _ _ _ _ _ _ _ _ SN S0) as (-> & EB & EE). assert (oo0 = oo) by exact (same_acct _ _ _ _ _ _ _ _ _ _ _ SN S0 IX I0). subst oo0.
    destruct (orders_sums _ _ _ _ _ _ _ _ _ _ _ S0 OD ltac:(congruence) NV VT) as (m1 & A1 & L1 & oo1 & E1 & SN1 & SC & IX1 & EV1 & OW1 & VT1 & c1 & c2 & c3 & c4).
    assert (V : m_coin_vault m1 = m_coin_vault m /\ m_pc_vault m1 = m_pc_vault m) by (destruct SC as (? & ? & ? & ? & ->); auto). destruct V as [V1 V2].
    destruct (IH NP m1 A1 L1 oo1 SN1 IX1 ltac:(congruence) ltac:(congruence) ltac:(unfold vaulted in *; rewrite V1, V2; exact VT1)) as (m2 & A2 & L2 & oo2 & E2 & SN2 & IX2 & EV2 & d1 & d2 & d3 & d4).
    rewrite V1 in d3. rewrite V2 in d4. exists m2, A2, L2, oo2, (E1 ++ E2). split; [exact SN2|]. split; [exact IX2|]. split; [rewrite EV2, EV1, EE, app_assoc; reflexivity|]. rewrite events_app, !zsum_app. repeat split; lia.
Qed.
Lemma untouched_token s s' ys v : only s s' ys -> (forall y, In y ys -> exists d, D s y = Some d) -> token_at s v <> None -> token_at s' v = token_at s v.
Proof.
  intros O DX T. unfold token_at in *. assert (NI : ~ In v ys); [|rewrite !(O v NI); reflexivity]. intros I. destruct (DX v I) as (d & X). apply dexd_owned in X. destruct X as [X _]. rewrite X in T. pose proof (eo_spl _ EO) as N. destruct (Z.eqb_spec (e_prog e) spl_id); [congruence|contradiction].
Qed.
Lemma cancels_sums s s' k m A L x oo bl al : seen e s k m A L -> In (x, oo) L -> cancels e s s' k m A L x oo bl al -> exists A' L' oo' E,
  seen e s' k m A' L' /\ In (x, oo') L' /\ a_evs A' = a_evs A ++ E /\ oo_owner oo' = oo_owner oo /\ oo_coin_total oo' = oo_coin_total oo /\ oo_pc_total oo' = oo_pc_total oo /\ (forall v, In v E -> is_fill v = false) /\
  (forall v, token_at s v <> None -> token_at s' v = token_at s v).
Proof.
  intros SN IX (A' & oo' & [_ _ _ _ (E & EV & PM) (b1 & b2 & b3 & b4 & b5) (s1 & s2 & s3 & _)] & SN' & ON). exists A', (put_acct L x oo'), oo', E. split; [exact SN'|].
  split; [unfold put_acct; apply in_map_iff; exists (x, oo); cbn [fst]; rewrite Z.eqb_refl; auto|]. split; [exact EV|]. split; [exact s3|]. split; [lia|]. split; [lia|]. split; [|intros v; apply (untouched_token _ _ _ _ ON)].
  2:{ intros y [<-|[<-|[<-|[<-|[]]]]]; [destruct (sn_bids _ _ _ _ _ _ SN) as (? & ? & _); eauto|destruct (sn_asks _ _ _ _ _ _ SN) as (? & ? & _); eauto|destruct (sn_evs _ _ _ _ _ _ SN) as (? & ? & _); eauto|]. apply (sn_oos _ _ _ _ _ _ SN) in IX. destruct IX as (IX & _). eauto. }
  intros v I. apply (Permutation_in _ PM) in I. apply in_app_or in I. destruct I as [I|I]; apply in_map_iff in I; destruct I as (l & <- & _); reflexivity.
Qed.

(** ** One instruction *)
Section Step.
Variables (s s' : store) (c : clock) (i : instr) (ms : list meta) (k : Z) (m : market) (A : astate) (L : list acct).
Hypothesis (HI : history e s) (G : no_overflow e s) (SZ : sized s) (LG : legal e ms) (WF : wf_instr i) (H : process e c s i ms = Ok s').
Hypothesis (SN : seen e s k m A L) (P : usable m) (NV : m_coin_vault m <> m_pc_vault m).
Let WI : winv e s := reachable_inv e EO s HI.
Let W : wstruct (D s) := wi_str _ _ WI.
Let HM : D s k = Some (DMarket m) := sn_mkt _ _ _ _ _ _ SN.

(** Whoever has no account here has no orders and no events here. *)
Lemma stranger x : (forall oo, ~ In (x, oo) L) -> (forall sd l, In l (book_of A sd) -> l_owner l <> x) /\ forall v, In v (a_evs A) -> ev_owner v <> x.
Proof.
  intros N. destruct (seen_state e s k m A L WI SN P) as (seq & o & MS). pose proof (ms_inv _ _ _ _ _ _ _ MS) as C.
  assert (NX : ~ In x (map fst L)) by (intros I; apply in_map_iff in I; destruct I as ((y & oo) & EY & I); cbn [fst] in EY; subst y; exact (N oo I)).
  split; [intros sd l I <-; apply NX; exact (proj1 (ci_own _ _ _ _ C sd l I))|intros v I <-; apply NX; exact (proj1 (ci_evown _ _ _ _ C v I))].
Qed.
Lemma vaulted_now : vaulted s m.
Proof. destruct (wv_coin _ _ (wi_vlt _ _ WI) k m HM) as (tc & VC). destruct (wv_pc _ _ (wi_vlt _ _ WI) k m HM) as (tp & VP). split; [rewrite (vo_tok _ _ _ _ _ _ _ VC)|rewrite (vo_tok _ _ _ _ _ _ _ VP)]; discriminate. Qed.
(** An instruction for others leaves the account alone, except that events are processed and orders pruned. *)
Definition same_oo (x : Z) : Prop := forall oo, D s' x = Some (DOO oo) <-> D s x = Some (DOO oo).
Lemma deed_oo k0 m0 m1 xo x : deed e s s' k0 m0 m1 xo -> (forall a o, xo = Some (a, o) -> x <> a) -> same_oo x.
Proof. intros DE N oo. split; intros X; [rewrite <- (de_oos _ _ _ _ _ _ _ DE x) by eauto|rewrite (de_oos _ _ _ _ _ _ _ DE x) by eauto]; exact X. Qed.
Lemma touch x : acts_for i ms <> Some x -> same_oo x \/ (exists n, i = IPrune n) \/ consuming i.
Proof.
  intros NA. assert (OT : forall k0 m0 m1 x0 o0, deed e s s' k0 m0 m1 (Some (x0, o0)) -> acts_for i ms = Some x0 -> same_oo x \/ (exists n, i = IPrune n) \/ consuming i).
  { intros k0 m0 m1 x0 o0 DE AF. left. eapply deed_oo; [exact DE|]. intros a o [= <- <-]. congruence. }
  assert (ON : forall k0 m0 m1, deed e s s' k0 m0 m1 None -> same_oo x \/ (exists n, i = IPrune n) \/ consuming i) by (intros; left; eapply deed_oo; [eassumption|discriminate]).
  assert (CA : forall core, proc_cancel e s core ms = Ok s' -> (forall o x oo o' oo', core o x oo = Ok (o', oo') -> ob_mkt o' = ob_mkt o /\ same_id oo oo') -> acts_for i ms = key_at ms 3 -> same_oo x \/ (exists n, i = IPrune n) \/ consuming i).
  { intros core HC F AF. destruct (cancel_deed e EO s core ms s' W HC F) as (k0 & x0 & w & m0 & oo & oo' & _ & K3 & _ & DE & _). eapply OT; [exact DE|congruence]. }
  assert (RP : forall ixs, proc_replace e c s ixs ms = Ok s' -> acts_for i ms = key_at ms 1 -> same_oo x \/ (exists n, i = IPrune n) \/ consuming i).
  { intros ixs HR AF. destruct (replace_deed e EO s c ixs ms s' W HR) as (k0 & x0 & w & m0 & m1 & oo & oo' & _ & K1 & _ & _ & _ & DE & _). eapply OT; [exact DE|congruence]. }
  assert (X : forall j, j = i -> process e c s j ms = Ok s' -> same_oo x \/ (exists n, i = IPrune n) \/ consuming i); [|exact (X i eq_refl H)].
  intros j EI HJ. destruct j; cbn [process] in HJ; try discriminate.
  - destruct (init_ran e _ _ _ _ _ HJ) as (k1 & rqa & eqa & ba & aa & cv & pv & cm & pm & p & auths & R). left. intros oo. exact (in_was_oo e EO _ _ _ _ _ _ _ _ _ _ _ _ _ _ _ R x oo).
  - assert (ES : s' = s) by congruence. left. intros oo. rewrite ES. reflexivity.
  - right. right. rewrite <- EI. eexists. left. reflexivity.
  - destruct (settle_deed e EO _ _ _ W HJ) as (k0 & x0 & w & m0 & m1 & oo & oo' & _ & K1 & _ & _ & DE & _). eapply OT; [exact DE|rewrite <- EI; exact K1].
  - destruct (disable_deed e EO _ _ _ W HJ) as (k0 & m0 & _ & _ & _ & DE & _). eapply ON; exact DE.
  - destruct (sweep_deed e EO _ _ _ W HJ) as (k0 & m0 & pw & p & spl & _ & _ & _ & DE & _). eapply ON; exact DE.
  - destruct (order_deed e EO _ _ _ _ _ W HJ) as (k0 & x0 & w & m0 & m1 & oo & oo' & _ & K1 & _ & _ & _ & DE & _). eapply OT; [exact DE|rewrite <- EI; exact K1].
  - eapply CA; [exact HJ|cbv beta; intros * HH; eapply cancel_v2_frame; exact HH|rewrite <- EI; reflexivity].
  - unfold proc_cancel_cid in HJ. apply rbind_ok in HJ. destruct HJ as (? & _ & HJ). eapply CA; [exact HJ|cbv beta; intros * HH; eapply cancel_cid_frame; exact HH|rewrite <- EI; reflexivity].
  - destruct (take_deed e EO _ _ _ _ W HJ) as (k0 & m0 & m1 & _ & _ & _ & DE & _). eapply ON; exact DE.
  - destruct (close_deed e EO _ _ _ W HJ) as (k0 & x0 & w & dest & m0 & oo & oo' & KM & _ & DE & _). eapply OT; [exact DE|rewrite <- EI; cbn [acts_for]; rewrite (key_map _ _ _ KM); reflexivity].
  - destruct (init_oo_deed e EO _ _ _ _ W HJ) as (k0 & x0 & w & m0 & oo & rest & KM & _ & _ & DE & _). eapply OT; [exact DE|rewrite <- EI; cbn [acts_for]; rewrite (key_map _ _ _ KM); reflexivity].
  - right. left. rewrite <- EI. eauto.
  - right. right. rewrite <- EI. eexists. right. reflexivity.
  - eapply CA; [exact HJ|cbv beta; intros * HH; eapply cancel_cids_frame; exact HH|rewrite <- EI; reflexivity].
  - eapply RP; [exact HJ|rewrite <- EI; reflexivity].
  - eapply RP; [exact HJ|rewrite <- EI; reflexivity].
Qed.

(** What the account owned and owns, and the events queued between. *)
Variables (x : Z) (m' : market) (A' : astate) (L' : list acct) (E : list event_view) (cn pc cn' pc' : Z).
Hypothesis (SN' : seen e s' k m' A' L') (SC : same_config m m') (QE : queued e k s s' E) (OW : owned x A L cn pc) (OW' : owned x A' L' cn' pc').
Definition adds_up : Prop :=
  let a := entry e k x s s' i ms in
  cn' = cn + coin_in a - coin_out a + zsum coin_trade (events_of x E) /\ pc' = pc + pc_in a - pc_out a + zsum pc_trade (events_of x E).
Lemma member st mm AA LL oo : seen e st k mm AA LL -> In (x, oo) LL <-> D st x = Some (DOO oo) /\ oo_flags oo = OO_FLAGS /\ oo_market oo = k.
Proof. intros X. exact (sn_oos _ _ _ _ _ _ X x oo). Qed.
Lemma fixed oo : In (x, oo) L -> cn = coin_claim x oo A /\ pc = pc_claim x oo A.
Proof. intros I. destruct OW as [(o & IO & -> & ->)|(N & _)]; [|destruct (N oo I)]. assert (o = oo) by (apply (member _ _ _ _ _ SN) in I; apply (member _ _ _ _ _ SN) in IO; destruct I, IO; congruence). subst o. auto. Qed.
Lemma fixed' oo : In (x, oo) L' -> cn' = coin_claim x oo A' /\ pc' = pc_claim x oo A'.
Proof. intros I. destruct OW' as [(o & IO & -> & ->)|(N & _)]; [|destruct (N oo I)]. assert (o = oo) by (apply (member _ _ _ _ _ SN') in I; apply (member _ _ _ _ _ SN') in IO; destruct I, IO; congruence). subst o. auto. Qed.
Lemma none : (forall oo, ~ In (x, oo) L) -> cn = 0 /\ pc = 0.
Proof. intros N. destruct OW as [(o & IO & _)|(_ & X)]; [destruct (N o IO)|exact X]. Qed.
Lemma none' : (forall oo, ~ In (x, oo) L') -> cn' = 0 /\ pc' = 0.
Proof. intros N. destruct OW' as [(o & IO & _)|(_ & X)]; [destruct (N o IO)|exact X]. Qed.
Lemma no_line : acts_for i ms <> Some x \/ key_at ms 0 <> Some k -> entry e k x s s' i ms = nothing.
Proof.
  intros N. unfold entry. destruct (key_at ms 0) as [k'|] eqn:E0; [|reflexivity]. destruct (acts_for i ms) as [x'|] eqn:E1; [|reflexivity]. rewrite HM. destruct (Z.eqb_spec k' k); [|reflexivity]. destruct (Z.eqb_spec x' x); [|reflexivity]. exfalso. destruct N; congruence.
Qed.
Lemma either : (exists oo, In (x, oo) L) \/ (forall oo, ~ In (x, oo) L).
Proof. destruct OW as [(o & IO & _)|(N & _)]; eauto. Qed.
Lemma newcomer oo' : (exists n, i = IPrune n) \/ consuming i -> In (x, oo') L' -> exists oo, In (x, oo) L.
Proof.
  intros PC I'. apply (member _ _ _ _ _ SN') in I'. destruct I' as (D' & F' & M').
  assert (CR : forall k0 m0 qa oos n, D s k0 = Some (DMarket m0) -> consume_with e s m0 qa oos n = Ok s' -> exists oo, In (x, oo) L).
  { intros k0 m0 qa oos n HM0 HC. destruct (consume_deed e EO s k0 m0 qa oos n s' W HM0 HC) as (_ & _ & _ & (q & q' & _ & HQ') & V). assert (NQ : x <> m_event_q m0) by congruence.
    destruct (V x NQ) as [Y|(_ & o & o' & (L1 & L2 & L3) & Y & (I1 & I2 & I3))].
    - exists oo'. apply (member _ _ _ _ _ SN). split; [congruence|auto].
    - exists o. apply (member _ _ _ _ _ SN). assert (o' = oo') by congruence. subst o'. split; [exact L1|]. split; [exact L2|]. congruence. }
  destruct PC as [(n & IP)|(n & [CI|CI])]; pose proof H as H1; [rewrite IP in H1|rewrite CI in H1..]; cbn [process] in H1.
  - destruct (prune_deed e EO _ _ _ _ W H1) as (k0 & x0 & auth & m0 & oo0 & oo1 & _ & _ & _ & _ & _ & DE & (L1 & L2 & L3) & (I1 & I2 & I3) & _). destruct (Z.eq_dec x x0) as [EX|NX].
    + exists oo0. rewrite EX. assert (Y : D s' x = Some (DOO oo1)) by (rewrite EX; eapply de_at; [exact DE|reflexivity]). assert (oo1 = oo') by congruence. subst oo1. apply (sn_oos _ _ _ _ _ _ SN). split; [exact L1|]. split; [exact L2|congruence].
    + exists oo'. apply (member _ _ _ _ _ SN). split; [|auto]. apply (deed_oo _ _ _ _ x DE); [intros a o [= <- <-]; exact NX|exact D'].
  - unfold proc_consume in H1. destruct (rev ms) as [|z1 [|z2 [|eqa [|mkt [|z3 z4]]]]]; try discriminate. apply rbind_ok in H1. destruct H1 as (m0 & HM0 & H1). apply rbind_ok in H1. destruct H1 as (? & _ & H1).
    apply load_market_ok in HM0. destruct HM0 as [HM0 _]. eapply CR; eauto.
  - unfold proc_consume_perm in H1. destruct (rev ms) as [|z1 [|eqa [|mkt [|z3 z4]]]]; try discriminate. apply rbind_ok in H1. destruct H1 as (m0 & HM0 & H1). apply rbind_ok in H1. destruct H1 as (? & _ & H1).
    apply rbind_ok in H1. destruct H1 as (? & _ & H1). apply load_market_ok in HM0. destruct HM0 as [HM0 _]. eapply CR; eauto.
Qed.
(** The account is nobody's concern here. *)
Lemma by_others : acts_for i ms <> Some x -> adds_up.
Proof.
  intros NA. unfold adds_up. rewrite (no_line (or_introl NA)). cbn [coin_in coin_out pc_in pc_out nothing].
  destruct (lived_step e EO s s' c i ms k m A L WI G LG WF H SN P m' A' L' SN' SC) as (_ & vs & rest & E0 & X1 & X2 & O & HE & CO & num & num' & NN & NN' & LE & LV & _).
  assert (E0 = E) as -> by (eapply (queued_fun e); [|exact QE]; apply (queued_iff e _ _ _ _ _ _ _ _ _ _ SN SN'); exists vs, rest; intuition).
  assert (DEC : consuming i \/ ~ consuming i) by (destruct i; try (right; intros (n0 & [?|?]); discriminate); left; eexists; eauto).
  assert (TR : forall v, In v (events_of x E) -> coin_trade v = coin_move v /\ pc_trade v = pc_move v).
  { intros v I. apply filter_In in I. destruct I as [I OV]. destruct (HE v I) as [X|(sd & l & IL & OL & AB)]; [exfalso; apply NA; rewrite X; f_equal; lia|].
    assert (RS : rests sd l A (l_qty l)) by (left; rewrite set_qty_same; split; [exact (proj1 (resting_pos e s k m A L WI SN P sd l IL))|exact IL]).
    destruct (seen_state e s k m A L WI SN P) as (seq & o & MS). assert (IS : issued num sd (l_key l)). { replace num with seq; [exact (ci_keys _ _ _ _ (ms_inv _ _ _ _ _ _ _ MS) sd l IL)|]. pose proof (ms_req _ _ _ _ _ _ _ MS) as RQ. unfold next_number in NN. congruence. }
    destruct (LV sd l _ IS RS) as (q' & ST & _). eapply story_trades; [exact ST|]. apply filter_In. auto. }
  assert (T2 : zsum coin_trade (events_of x E) = zsum coin_move (events_of x E) /\ zsum pc_trade (events_of x E) = zsum pc_move (events_of x E)).
  { clear - TR. induction (events_of x E) as [|v r IH]; [auto|]. destruct (TR v (or_introl eq_refl)). destruct IH as [I1 I2]; [intros; apply TR; right; assumption|]. cbn [zsum]. lia. }
  destruct T2 as [-> ->].
  assert (QU : (forall oo, ~ In (x, oo) L) -> zsum coin_move (events_of x E) = 0 /\ zsum pc_move (events_of x E) = 0).
  { intros N. destruct (stranger x N) as [S1 _]. replace (events_of x E) with (@nil event_view); [auto|]. symmetry. unfold events_of. clear - HE NA S1. induction E as [|v r IH]; [reflexivity|]. cbn [filter]. rewrite (IH (fun w I => HE w (or_intror I))).
    destruct (Z.eqb_spec (ev_owner v) x) as [EQ|]; [|reflexivity]. exfalso. destruct (HE v (or_introl eq_refl)) as [X|(sd & l & IL & OL & _)]; [apply NA; congruence|]. apply (S1 sd l IL). congruence. }
  assert (GONE : (forall oo, ~ In (x, oo) L) -> (forall oo, ~ In (x, oo) L') -> cn' = cn + 0 - 0 + zsum coin_move (events_of x E) /\ pc' = pc + 0 - 0 + zsum pc_move (events_of x E)).
  { intros N N'. destruct (QU N). destruct (none N), (none' N'). lia. }
  assert (STAY : forall oo oo', In (x, oo) L -> In (x, oo') L' -> oo_coin_total oo' = oo_coin_total oo -> oo_pc_total oo' = oo_pc_total oo -> a_evs A' = a_evs A ++ E -> cn' = cn + 0 - 0 + zsum coin_move (events_of x E) /\ pc' = pc + 0 - 0 + zsum pc_move (events_of x E)).
  { intros oo oo' I I' T1 T2 EV. destruct (fixed oo I) as [-> ->], (fixed' oo' I') as [-> ->]. unfold coin_claim, pc_claim. rewrite EV, events_app, !zsum_app. lia. }
  destruct DEC as [CI|NC].
  - destruct (consume_kept e EO s s' c i ms k m A L HI G H SN P m' A' L' CI SN') as (us & EA & BK).
    assert (EN : E = []) by (eapply (queued_fun e); [exact QE|]; apply (queued_iff e _ _ _ _ _ _ _ _ _ _ SN SN'); exists us, (a_evs A'); rewrite app_nil_r; auto).
    destruct either as [(oo & IX)|N].
    + destruct (BK x oo IX) as (oo' & DX & B). pose proof (pending_ok e EO s k m A L HI SN P) as OK. rewrite EA in OK. apply Forall_app in OK. destruct OK as [OK _].
      destruct (booked_moves _ _ _ (filter_all _ _ _ OK) B) as (b1 & b2 & b3 & b4 & b5 & b6).
      assert (IX' : In (x, oo') L') by (apply (member _ _ _ _ _ SN'); apply (member _ _ _ _ _ SN) in IX; destruct IX as (_ & I2 & I3); split; [exact DX|]; split; congruence).
      destruct (fixed oo IX) as [-> ->], (fixed' oo' IX') as [-> ->]. unfold coin_claim, pc_claim. rewrite EN, EA, events_app, !zsum_app. cbn [events_of filter zsum] in *. fold (events_of x us) in *. lia.
    + apply GONE; [exact N|]. intros oo' I'. destruct (newcomer oo' (or_intror CI) I') as (oo & I). exact (N oo I).
  - destruct O as [->|[_ CI]]; [|contradiction]. cbn [app] in X1. subst rest. destruct (touch x NA) as [T|[(n0 & IP)|CI]]; [..|contradiction].
    + destruct either as [(oo & IX)|N].
      * eapply STAY; [exact IX| |reflexivity|reflexivity|exact X2]. apply (member _ _ _ _ _ SN'). apply (member _ _ _ _ _ SN) in IX. rewrite (T oo). exact IX.
      * apply GONE; [exact N|]. intros oo I. apply (member _ _ _ _ _ SN') in I. apply (N oo). apply (member _ _ _ _ _ SN). rewrite <- (T oo). exact I.
    + destruct either as [(oo & IX)|N].
      * destruct (pruned e EO s s' c i ms k m A L HI WF H SN P n0 x oo m' A' L' E IP SN' X2 IX) as (oo' & p1 & p2 & p3 & p4 & p5 & p6 & p7 & p8 & p9).
        eapply STAY; [exact IX| |exact p6|exact p7|exact X2]. apply (member _ _ _ _ _ SN'). apply (member _ _ _ _ _ SN) in IX. destruct IX as (_ & I2 & I3). split; [exact p1|]. split; congruence.
      * apply GONE; [exact N|]. intros oo' I'. destruct (newcomer oo' (or_introl (ex_intro _ n0 IP)) I') as (oo & I). exact (N oo I).
Qed.
(** ** Instructions for the account *)
Lemma no_events : D s' (m_event_q m) = D s (m_event_q m) -> a_evs A' = a_evs A /\ E = [].
Proof.
  intros DQ. destruct (sn_evs _ _ _ _ _ _ SN) as (q1 & Q1 & Q2). destruct (sn_evs _ _ _ _ _ _ SN') as (q2 & Q3 & Q4). assert (EQ : m_event_q m' = m_event_q m) by (destruct SC as (? & ? & ? & ? & ? & ->); reflexivity). rewrite EQ in Q3. assert (q2 = q1) by congruence. subst q2.
  assert (EE : a_evs A' = a_evs A) by (eapply views_fun; eassumption). split; [exact EE|]. eapply (queued_fun e); [exact QE|]. apply (queued_iff e _ _ _ _ _ _ _ _ _ _ SN SN'). exists [], (a_evs A). rewrite app_nil_r. auto.
Qed.
Lemma these_events A2 L2 m2 E2 : seen e s' k m2 A2 L2 -> a_evs A2 = a_evs A ++ E2 -> a_evs A' = a_evs A ++ E2 /\ E = E2.
Proof.
  intros S2 EV. destruct (seen_same e _ _ _ _ _ _ _ _ S2 SN') as (_ & _ & EE). split; [congruence|]. eapply (queued_fun e); [exact QE|]. apply (queued_iff e _ _ _ _ _ _ _ _ _ _ SN SN'). exists [], (a_evs A). split; [reflexivity|]. split; [congruence|auto].
Qed.
Lemma also_here A2 L2 m2 oo2 : seen e s' k m2 A2 L2 -> In (x, oo2) L2 -> In (x, oo2) L'.
Proof. intros S2 I. apply (member _ _ _ _ _ SN'). apply (member _ _ _ _ _ S2) in I. exact I. Qed.
Lemma elsewhere k0 m0 m1 o1 : entry e k x s s' i ms = nothing -> deed e s s' k0 m0 m1 (Some (x, o1)) -> D s x = Some DZero \/ (exists oo, D s x = Some (DOO oo) /\ oo_market oo = k0) -> oo_market o1 = k0 -> k0 <> k -> adds_up.
Proof.
  intros EN DE DX M1 NK. unfold adds_up. rewrite EN. pose proof (de_mkt _ _ _ _ _ _ _ DE) as HM0. destruct (sn_evs _ _ _ _ _ _ SN) as (qq & HQ & _).
  destruct (apart _ _ _ _ _ W HM0 HM (fun X => NK (eq_sym X)) (m_event_q m) ltac:(auto)) as (n1 & n2 & n3 & n4 & n5).
  assert (EX : D s' (m_event_q m) = D s (m_event_q m)) by (eapply de_else; [exact DE|try assumption..]; intros a o [= <- <-] EY; destruct DX as [DX|(oo & DX & _)]; congruence).
  destruct (no_events EX) as [_ EE]. rewrite EE.
  assert (N : forall oo, ~ In (x, oo) L) by (intros oo I; apply (member _ _ _ _ _ SN) in I; destruct I as (I1 & _ & I3); destruct DX as [DX|(o & DX & MX)]; congruence).
  assert (N' : forall oo, ~ In (x, oo) L') by (intros oo I; apply (member _ _ _ _ _ SN') in I; destruct I as (I1 & _ & I3); pose proof (de_at _ _ _ _ _ _ _ DE _ _ eq_refl); congruence).
  destruct (none N), (none' N'). cbn [events_of filter zsum coin_in coin_out pc_in pc_out nothing]. lia.
Qed.
Lemma line_order : key_at ms 0 = Some k -> acts_for i ms = Some x -> (exists ix, i = INewOrderV3 ix) \/ (exists ix, i = IReplaceOne ix) \/ (exists ixs, i = IReplaceMany ixs) ->
  entry e k x s s' i ms = mkAmounts (balance s' (m_coin_vault m) - balance s (m_coin_vault m)) (balance s' (m_pc_vault m) - balance s (m_pc_vault m)) 0 0.
Proof. intros K0 AF B. unfold entry. rewrite K0, AF, HM, !Z.eqb_refl. cbn [andb]. destruct B as [(ix & ->)|[(ix & ->)|(ix & ->)]]; reflexivity. Qed.
Lemma same_claims oo oo' E2 : In (x, oo) L -> In (x, oo') L' -> a_evs A' = a_evs A ++ E2 -> zsum coin_move (events_of x E2) = 0 -> zsum pc_move (events_of x E2) = 0 ->
  cn' - cn = oo_coin_total oo' - oo_coin_total oo /\ pc' - pc = oo_pc_total oo' - oo_pc_total oo.
Proof. intros I I' EV Z1 Z2. destruct (fixed oo I) as [-> ->], (fixed' oo' I') as [-> ->]. unfold coin_claim, pc_claim. rewrite EV, events_app, !zsum_app. lia. Qed.
Lemma no_one w j : signs ms j w -> ~ is_pda e w.
Proof. intros SG. apply (LG (mkMeta w true)); [eapply nth_error_In; exact SG|reflexivity]. Qed.
Lemma sum_none y (f : event_view -> Z) vs : (forall v, In v vs -> ev_owner v <> y) -> zsum f (events_of y vs) = 0.
Proof. intros N. unfold events_of. induction vs as [|v r IH]; [reflexivity|]. cbn [filter]. destruct (Z.eqb_spec (ev_owner v) y) as [X|]; [destruct (N v (or_introl eq_refl) X)|]. apply IH. intros; apply N; right; assumption. Qed.
Lemma by_order ix : i = INewOrderV3 ix -> acts_for i ms = Some x -> adds_up.
Proof.
  intros EI AF. pose proof H as HJ. rewrite EI in HJ. pose proof WF as WJ. rewrite EI in WJ. pose proof HJ as HP. cbn [process] in HJ.
  destruct (order_deed e EO _ _ _ _ _ W HJ) as (k0 & x0 & w & m0 & m1 & oo & oo' & K0 & K1 & SG & _ & _ & DE & LO & OWN & _ & FO & MO & _).
  assert (x0 = x) by (rewrite EI in AF; cbn [acts_for] in AF; congruence). subst x0. destruct (Z.eq_dec k0 k) as [EK|NK].
  - clear MO. subst k0. destruct (order_effect e EO s k m A L WI SN P (guard_room e s 1 G ltac:(lia)) c ix ms s' HP K0 (wf_order _ WJ)) as (x1 & w1 & t & payer & oo1 & K1' & SG1 & _ & OW1 & _ & LO1 & OD).
    assert (x1 = x) by congruence. subst x1. destruct (orders_sums _ _ _ _ _ _ _ _ _ _ _ SN OD ltac:(rewrite OW1; eapply no_one; exact SG1) NV vaulted_now) as (m2 & A2 & L2 & oo2 & E2 & SN2 & _ & IX2 & EV2 & _ & _ & c1 & c2 & c3 & c4).
    destruct (these_events _ _ _ _ SN2 EV2) as [EA EE]. pose proof (also_here _ _ _ _ SN2 IX2) as IX'. unfold adds_up. rewrite (line_order K0 AF ltac:(left; eauto)), EE. cbn [coin_in coin_out pc_in pc_out].
    destruct LO1 as [IX|(Z1 & _ & (_ & _ & _ & _ & t1 & _ & t2 & _))].
    + destruct (same_claims _ _ _ IX IX' EA c1 c2). lia.
    + assert (N : forall oo, ~ In (x, oo) L) by (intros o I; apply (member _ _ _ _ _ SN) in I; destruct I; congruence). destruct (none N) as [-> ->]. destruct (fixed' _ IX') as [-> ->]. destruct (stranger x N) as [_ NE].
      unfold coin_claim, pc_claim. rewrite EA, events_app, !zsum_app, !(sum_none x _ (a_evs A) NE). lia.
  - eapply elsewhere; [apply no_line; right; congruence|exact DE| |exact MO|exact NK]. destruct LO as [(L1 & _ & L3)|(L1 & _)]; eauto.
Qed.
Lemma by_settle : i = ISettleFunds -> acts_for i ms = Some x -> adds_up.
Proof.
  intros EI AF. pose proof H as HJ. rewrite EI in HJ. pose proof HJ as HP. cbn [process] in HJ.
  destruct (settle_deed e EO _ _ _ W HJ) as (k0 & x0 & w & m0 & m1 & oo & oo' & K0 & K1 & SG & _ & DE & LO & OWN & (_ & S2 & _) & _).
  assert (x0 = x) by (rewrite EI in AF; cbn [acts_for] in AF; congruence). subst x0. destruct (Z.eq_dec k0 k) as [EK|NK].
  - subst k0. destruct (settle_effect e EO s k m A L WI SN P c ms s' HP K0) as (x1 & oo1 & cw & pw & K1' & IX & _ & _ & _ & (m2 & oo2 & SN2 & _ & (b1 & b2 & b3 & b4 & b5) & _)).
    assert (x1 = x) by congruence. subst x1. assert (I2 : In (x, oo2) (put_acct L x oo2)) by (unfold put_acct; apply in_map_iff; exists (x, oo1); cbn [fst]; rewrite Z.eqb_refl; auto).
    destruct (these_events _ _ _ [] SN2 ltac:(rewrite app_nil_r; reflexivity)) as [EA EE]. pose proof (also_here _ _ _ _ SN2 I2) as IX'. pose proof (proj1 (member _ _ _ _ _ SN) IX) as (DX & _).
    unfold adds_up, entry. rewrite K0, AF, HM, !Z.eqb_refl, EE, EI, DX. cbn [andb coin_in coin_out pc_in pc_out]. destruct (same_claims _ _ [] IX IX' EA eq_refl eq_refl). cbn [events_of filter zsum]. lia.
  - eapply elsewhere; [apply no_line; right; congruence|exact DE| | |exact NK]; destruct LO as (L1 & _ & L3); [eauto|congruence].
Qed.
Lemma by_cancel core : proc_cancel e s core ms = Ok s' -> (forall o x oo o' oo', core o x oo = Ok (o', oo') -> ob_mkt o' = ob_mkt o /\ same_id oo oo') -> acts_for i ms = key_at ms 3 -> entry e k x s s' i ms = nothing ->
  (key_at ms 0 = Some k -> exists x oo bl al, key_at ms 3 = Some x /\ In (x, oo) L /\ cancels e s s' k m A L x oo bl al) -> acts_for i ms = Some x -> adds_up.
Proof.
  intros HC F A3 EN CE AF. destruct (cancel_deed e EO s core ms s' W HC F) as (k0 & x0 & w & m0 & oo & oo' & K0 & K3 & SG & DE & LO & OWN & (_ & S2 & _) & _).
  assert (x0 = x) by congruence. subst x0. destruct (Z.eq_dec k0 k) as [EK|NK].
  - subst k0. destruct (CE K0) as (x1 & oo1 & bl & al & K3' & IX & CC). assert (x1 = x) by congruence. subst x1. destruct (cancels_sums _ _ _ _ _ _ _ _ _ _ SN IX CC) as (A2 & L2 & oo2 & E2 & SN2 & IX2 & EV2 & _ & t1 & t2 & NF & _).
    destruct (these_events _ _ _ _ SN2 EV2) as [EA EE]. pose proof (also_here _ _ _ _ SN2 IX2) as IX'. destruct (nofill_sums x E2 NF) as (f1 & f2 & f3 & f4). destruct (same_claims _ _ _ IX IX' EA f1 f2).
    unfold adds_up. rewrite EN, EE. cbn [coin_in coin_out pc_in pc_out nothing]. lia.
  - eapply elsewhere; [exact EN|exact DE| | |exact NK]; destruct LO as (L1 & _ & L3); [eauto|congruence].
Qed.
Lemma by_replace ixs : process e c s (IReplaceMany ixs) ms = Ok s' -> Forall order_ix_ok ixs -> (length ixs <= 8)%nat -> acts_for i ms = key_at ms 1 -> (exists ix, i = IReplaceOne ix) \/ (exists ixs, i = IReplaceMany ixs) -> acts_for i ms = Some x -> adds_up.
Proof.
  intros HR FO LN A1 BI AF. destruct (replace_deed e EO s c ixs ms s' W HR) as (k0 & x0 & w & m0 & m1 & oo & oo' & K0 & K1 & SG & _ & _ & DE & LO & OWN & (_ & S2 & _) & _).
  assert (x0 = x) by congruence. subst x0. destruct (Z.eq_dec k0 k) as [EK|NK].
  - subst k0. destruct (replace_effect e EO s k m A L WI G SN P c ixs ms s' LG FO LN HR K0) as (x1 & o1 & payer & s1 & K1' & IX & SG1 & _ & CC & PL). assert (x1 = x) by congruence. subst x1.
    destruct (cancels_sums _ _ _ _ _ _ _ _ _ _ SN IX CC) as (A2 & L2 & oo2 & E2 & SN2 & IX2 & EV2 & OW2 & t1 & t2 & NF & TK). destruct vaulted_now as [V1 V2].
    destruct (placing_sums _ _ _ _ _ _ _ _ PL ltac:(eapply no_one; exact SG1) m A2 L2 oo2 SN2 IX2 OW2 NV ltac:(split; rewrite TK by assumption; assumption)) as (m3 & A3 & L3 & oo3 & E3 & SN3 & IX3 & EV3 & c1 & c2 & c3 & c4).
    assert (EV : a_evs A3 = a_evs A ++ (E2 ++ E3)) by (rewrite EV3, EV2, app_assoc; reflexivity).
    destruct (these_events _ _ _ _ SN3 EV) as [EA EE]. pose proof (also_here _ _ _ _ SN3 IX3) as IX'. destruct (nofill_sums x E2 NF) as (f1 & f2 & f3 & f4).
    assert (B1 : balance s1 (m_coin_vault m) = balance s (m_coin_vault m) /\ balance s1 (m_pc_vault m) = balance s (m_pc_vault m)) by (unfold balance; rewrite !TK by assumption; auto). destruct B1 as [B1 B2].
    destruct (same_claims _ _ _ IX IX' EA) as [d1 d2]; [rewrite events_app, zsum_app; lia..|]. unfold adds_up. rewrite (line_order K0 AF ltac:(tauto)), EE, events_app, !zsum_app. cbn [coin_in coin_out pc_in pc_out]. lia.
  - eapply elsewhere; [apply no_line; right; congruence|exact DE| | |exact NK]; destruct LO as (L1 & _ & L3'); [eauto|congruence].
Qed.
Lemma by_close : i = ICloseOO -> acts_for i ms = Some x -> adds_up.
Proof.
  intros EI AF. pose proof H as HJ. rewrite EI in HJ. pose proof HJ as HP. cbn [process] in HJ.
  assert (EN : entry e k x s s' i ms = nothing) by (unfold entry; rewrite EI, HM; destruct (key_at ms 0); [|reflexivity]; cbn [acts_for]; destruct (key_at ms 0); [|reflexivity]; destruct (_ && _); reflexivity).
  destruct (close_deed e EO _ _ _ W HJ) as (k0 & x0 & w & dest & m0 & oo & oo' & KM & SG & DE & LO & OWN & CC & _).
  assert (x0 = x) by (rewrite EI in AF; cbn [acts_for] in AF; rewrite (key_map _ _ _ KM) in AF; cbn [nth_error] in AF; congruence). subst x0.
  assert (CF : oo_flags oo' = AF_Closed /\ oo_market oo' = oo_market oo /\ oo_coin_total oo = 0 /\ oo_pc_total oo = 0).
  { unfold close_core in CC. apply rbind_ok in CC. destruct CC as (u1 & C1 & CC). apply rbind_ok in CC. destruct CC as (u2 & C2 & CC). apply rbind_ok in CC. destruct CC as (u3 & C3 & CC). injection CC as <-. apply check_ok in C2, C3. repeat split; lia. }
  destruct CF as (F' & M' & T1 & T2). destruct (Z.eq_dec k0 k) as [EK|NK].
  - subst k0. assert (IX : In (x, oo) L) by (apply (member _ _ _ _ _ SN); exact LO).
    destruct (close_clean e EO s k m A L WI SN P c ms s' x HP ltac:(rewrite (key_map _ _ _ KM); reflexivity) ltac:(rewrite (key_map _ _ _ KM); reflexivity)) as [_ NE].
    assert (N' : forall oo, ~ In (x, oo) L') by (intros o I; apply (member _ _ _ _ _ SN') in I; destruct I as (I1 & I2 & _); pose proof (de_at _ _ _ _ _ _ _ DE _ _ eq_refl) as I3; assert (o = oo') by congruence; subst o; rewrite F' in I2; discriminate).
    destruct (close_ran e _ _ _ W HJ) as (k1 & x1 & w1 & dest1 & m1 & oo1 & oo1' & sm & KM1 & _ & _ & (LV & _) & _ & _ & _ & _ & ES). assert (x1 = x) by congruence. subst x1.
    assert (DX : D (put_lamports (put_lamports s dest1 sm) x 0) x = Some (DOO oo1)) by (rewrite !dexd_lam; exact LV). destruct (sn_evs _ _ _ _ _ _ SN) as (qq & HQ & _).
    assert (EX : D s' (m_event_q m) = D s (m_event_q m)) by (rewrite ES, (dexd_put_owned _ _ _ _ _ _ DX), !dexd_lam; destruct (Z.eqb_spec (m_event_q m) x) as [X|]; [rewrite X in HQ; congruence|reflexivity]).
    destruct (no_events EX) as [_ EE]. unfold adds_up. rewrite EN, EE. destruct (none' N') as [-> ->]. destruct (fixed _ IX) as [-> ->]. unfold coin_claim, pc_claim. rewrite !(sum_none x _ (a_evs A) NE). cbn [events_of filter zsum coin_in coin_out pc_in pc_out nothing]. lia.
  - eapply elsewhere; [exact EN|exact DE| | |exact NK]; destruct LO as (L1 & _ & L3); [eauto|congruence].
Qed.
Lemma by_init : i = IInitOO -> acts_for i ms = Some x -> adds_up.
Proof.
  intros EI AF. pose proof H as HJ. rewrite EI in HJ. cbn [process] in HJ.
  assert (EN : entry e k x s s' i ms = nothing) by (unfold entry; rewrite EI, HM; destruct (key_at ms 0); [|reflexivity]; cbn [acts_for]; destruct (key_at ms 0); [|reflexivity]; destruct (_ && _); reflexivity).
  destruct (init_oo_deed e EO _ _ _ _ W HJ) as (k0 & x0 & w & m0 & oo & rest & KM & SG & _ & DE & LO & OWN & _).
  assert (x0 = x) by (rewrite EI in AF; cbn [acts_for] in AF; rewrite (key_map _ _ _ KM) in AF; cbn [nth_error] in AF; congruence). subst x0.
  assert (M1 : oo_market oo = k0) by (destruct LO as [(_ & _ & L3)|(_ & _ & ->)]; [exact L3|reflexivity]).
  assert (LX : D s x = Some DZero \/ exists o, D s x = Some (DOO o) /\ oo_market o = k0) by (destruct LO as [(L1 & _ & L3)|(L1 & _)]; eauto).
  destruct (Z.eq_dec k0 k) as [EK|NK].
  - clear M1. subst k0. destruct (init_oo_ran e _ _ _ _ W HJ) as (k1 & x1 & w1 & m1 & auth & oo1 & rest1 & KM1 & _ & _ & _ & _ & _ & _ & ES). assert (x1 = x) by congruence. subst x1. pose proof (de_at _ _ _ _ _ _ _ DE _ _ eq_refl) as DX'.
    assert (DX : exists d, D s x = Some d) by (destruct LX as [LX|(o & LX & _)]; eauto). destruct DX as (d & DX). destruct (sn_evs _ _ _ _ _ _ SN) as (qq & HQ & _).
    assert (EX : D s' (m_event_q m) = D s (m_event_q m)) by (rewrite ES, (dexd_put_owned _ _ _ _ _ _ DX); destruct (Z.eqb_spec (m_event_q m) x) as [X|]; [exfalso; rewrite X in HQ; destruct LX as [LX|(o & LX & _)]; congruence|reflexivity]).
    destruct (no_events EX) as [EA EE]. unfold adds_up. rewrite EN, EE. cbn [events_of filter zsum coin_in coin_out pc_in pc_out nothing].
    destruct LO as [LO|(Z1 & _ & OO)].
    + assert (IX : In (x, oo) L) by (apply (member _ _ _ _ _ SN); exact LO). assert (IX' : In (x, oo) L') by (apply (member _ _ _ _ _ SN'); destruct LO as (_ & L2 & L3); auto).
      destruct (same_claims _ _ [] IX IX' ltac:(rewrite app_nil_r; exact EA) eq_refl eq_refl). lia.
    + assert (N : forall o, ~ In (x, o) L) by (intros o I; apply (member _ _ _ _ _ SN) in I; destruct I; congruence). assert (IX' : In (x, oo) L') by (apply (member _ _ _ _ _ SN'); split; [exact DX'|]; rewrite OO; auto).
      destruct (none N) as [-> ->]. destruct (fixed' _ IX') as [-> ->]. destruct (stranger x N) as [_ NE]. unfold coin_claim, pc_claim. rewrite EA, !(sum_none x _ (a_evs A) NE). rewrite OO. cbn. lia.
  - eapply elsewhere; [exact EN|exact DE|exact LX|exact M1|exact NK].
Qed.
Theorem statement_step : adds_up.
Proof.
  assert (DEC : acts_for i ms = Some x \/ acts_for i ms <> Some x) by (destruct (acts_for i ms) as [y|]; [destruct (Z.eq_dec y x); [left; congruence|right; congruence]|right; discriminate]).
  destruct DEC as [AF|NA]; [|exact (by_others NA)].
  assert (NE : (match i with ICancelV2 _ _ | ICancelByCid _ | ICancelByCids _ => True | _ => False end) -> entry e k x s s' i ms = nothing).
  { intros B. unfold entry. rewrite HM, AF. destruct (key_at ms 0); [|reflexivity]. destruct (_ && _); [|reflexivity]. destruct i; try contradiction; reflexivity. }
  assert (X : forall j, j = i -> process e c s j ms = Ok s' -> wf_instr j -> adds_up); [|exact (X i eq_refl H WF)].
  intros j EI HJ WJ. destruct j; try (rewrite <- EI in AF; discriminate).
  - apply by_settle; auto.
  - eapply by_order; eauto.
  - pose proof HJ as H1. cbn [process] in HJ. eapply by_cancel; [exact HJ|cbv beta; intros * HH; eapply cancel_v2_frame; exact HH|rewrite <- EI; reflexivity|apply NE; rewrite <- EI; exact I| |exact AF]. intros K0.
    destruct (cancel_v2_effect e EO s k m A L WI SN P c _ _ ms s' H1 K0) as (y & oo & l & K3 & IN & SG & _ & _ & _ & R). do 4 eexists. eauto.
  - pose proof HJ as H1. cbn [process] in HJ. unfold proc_cancel_cid in HJ. apply rbind_ok in HJ. destruct HJ as (? & _ & HJ). eapply by_cancel; [exact HJ|cbv beta; intros * HH; eapply cancel_cid_frame; exact HH|rewrite <- EI; reflexivity|apply NE; rewrite <- EI; exact I| |exact AF]. intros K0.
    destruct (cancel_cid_effect e EO s k m A L WI SN P c _ ms s' H1 K0) as (_ & y & oo & sd & l & K3 & IN & SG & _ & _ & _ & R). do 4 eexists. eauto.
  - apply by_close; auto.
  - apply by_init; auto.
  - pose proof HJ as H1. cbn [process] in HJ. eapply by_cancel; [exact HJ|cbv beta; intros * HH; eapply cancel_cids_frame; exact HH|rewrite <- EI; reflexivity|apply NE; rewrite <- EI; exact I| |exact AF]. intros K0.
    destruct (cancel_cids_effect e EO s k m A L WI SN P c _ ms s' H1 K0) as (y & oo & K3 & IN & SG & R). do 4 eexists. eauto.
  - apply (by_replace [ix] HJ); [constructor; [exact (wf_order _ WJ)|constructor]|cbn; lia|rewrite <- EI; reflexivity|eauto|exact AF].
  - destruct WJ as [LN F]. apply (by_replace ixs HJ); [|lia|rewrite <- EI; reflexivity|eauto|exact AF]. eapply Forall_impl; [|exact F]. intros a. apply wf_order.
Qed.
End Step.
Lemma owned_fun x A A2 L L2 cn pc : owned x A L cn pc -> a_evs A2 = a_evs A -> (forall oo, In (x, oo) L <-> In (x, oo) L2) -> owned x A2 L2 cn pc.
Proof. intros [(oo & I & -> & ->)|(N & -> & ->)] EE IL; [left; exists oo; unfold coin_claim, pc_claim; rewrite EE; split; [apply IL; exact I|auto]|right; split; [intros oo I; apply (N oo), IL, I|auto]]. Qed.
Lemma owned_at x A L : exists cn pc, owned x A L cn pc.
Proof.
  assert (X : (exists oo, In (x, oo) L) \/ forall oo, ~ In (x, oo) L).
  { induction L as [|[y o] r IH]; [right; intros oo []|]. destruct (Z.eq_dec y x) as [->|N]; [left; exists o; left; reflexivity|]. destruct IH as [(oo & I)|IH]; [left; exists oo; right; exact I|right; intros oo [Y|I]; [congruence|exact (IH oo I)]]. }
  destruct X as [(oo & I)|N]; [exists (coin_claim x oo A), (pc_claim x oo A); left; eauto|exists 0, 0; right; auto].
Qed.
Lemma owned_one e0 s k m A L x a b c d : seen e0 s k m A L -> owned x A L a b -> owned x A L c d -> a = c /\ b = d.
Proof.
  intros SN [(o1 & I1 & -> & ->)|(N1 & -> & ->)] [(o2 & I2 & -> & ->)|(N2 & -> & ->)]; [|destruct (N2 _ I1)|destruct (N1 _ I2)|auto].
  apply (sn_oos _ _ _ _ _ _ SN) in I1. apply (sn_oos _ _ _ _ _ _ SN) in I2. assert (o1 = o2) by (destruct I1, I2; congruence). subst. auto.
Qed.
Lemma env_seen s s2 k m A L : history e s -> rely e s s2 -> seen e s k m A L -> usable m -> exists A2 L2, seen e s2 k m A2 L2 /\ a_evs A2 = a_evs A /\ forall x oo, In (x, oo) L <-> In (x, oo) L2.
Proof.
  intros HI R SN P. assert (HI2 : history e s2) by (eapply reach_env; eassumption). pose proof (rely_kept e _ _ R) as KP.
  assert (HM2 : D s2 k = Some (DMarket m)) by (apply KP; [exact (sn_mkt _ _ _ _ _ _ SN)|discriminate|apply nc; discriminate]). destruct (market_seen e EO s2 k m HI2 HM2 P) as (A2 & L2 & SN2). exists A2, L2. split; [exact SN2|]. split.
  - destruct (sn_evs _ _ _ _ _ _ SN) as (q1 & Q1 & Q2). destruct (sn_evs _ _ _ _ _ _ SN2) as (q3 & Q3 & Q4). apply KP in Q1; [|discriminate|apply nc; discriminate]. assert (q3 = q1) by congruence. subst q3. eapply views_fun; eassumption.
  - intros x oo. rewrite (sn_oos _ _ _ _ _ _ SN), (sn_oos _ _ _ _ _ _ SN2). split; intros (I1 & I2 & I3); (split; [|auto]).
    + apply KP; [exact I1|discriminate|]. intros (o & X1 & X2). injection X1 as <-. rewrite I2 in X2. discriminate.
    + eapply rely_was; [exact R|exact I1|discriminate].
Qed.
Lemma did b i c s s2 ms : unpack b = Some i -> process e c s i ms = Ok s2 -> transact e c s b ms = s2.
Proof. intros U H. unfold transact, process_bytes. rewrite U. cbn [ok_or rbind]. rewrite H. reflexivity. Qed.
Lemma statement_story k x s E T s' : statement e k x s E T s' -> history e s -> forall m A L cn pc, seen e s k m A L -> usable m -> m_coin_vault m <> m_pc_vault m -> owned x A L cn pc ->
  history e s' /\ exists m' A' L' cn' pc', seen e s' k m' A' L' /\ same_config m m' /\ owned x A' L' cn' pc' /\
    cn' = cn + zsum coin_in T - zsum coin_out T + zsum coin_trade (events_of x E) /\ pc' = pc + zsum pc_in T - zsum pc_out T + zsum pc_trade (events_of x E).
Proof.
  intros ST HI m A L cn pc SN P NV OW. induction ST as [|E T s1 c b ms i s2 E1 ST IH G SZ HB LG U H Q|E T s1 s2 ST IH R].
  - split; [exact HI|]. exists m, A, L, cn, pc. split; [exact SN|]. split; [apply same_config_refl|]. split; [exact OW|]. cbn. lia.
  - destruct IH as (HI1 & m1 & A1 & L1 & cn1 & pc1 & SN1 & SC1 & OW1 & C1 & C2).
    assert (P1 : usable m1 /\ m_coin_vault m1 <> m_pc_vault m1) by (destruct SC1 as (? & ? & ? & ? & ? & ->); split; assumption). destruct P1 as [P1 NV1].
    split; [rewrite <- (did b i c s1 s2 ms U H); apply reach_tx; assumption|]. destruct (unpack_pack _ _ HB U) as [WF _].
    destruct (seen_after e EO _ _ _ _ _ _ _ _ _ HI1 G SZ LG WF H SN1 P1) as (m2 & A2 & L2 & SN2 & SC2). destruct (owned_at x A2 L2) as (cn2 & pc2 & OW2).
    destruct (statement_step s1 s2 c i ms k m1 A1 L1 HI1 G LG WF H SN1 P1 NV1 x m2 A2 L2 E1 cn1 pc1 cn2 pc2 SN2 SC2 Q OW1 OW2) as [D1 D2].
    exists m2, A2, L2, cn2, pc2. split; [exact SN2|]. split; [eapply same_config_trans; eassumption|]. split; [exact OW2|]. rewrite events_app, !zsum_app. cbn [zsum]. lia.
  - destruct IH as (HI1 & m1 & A1 & L1 & cn1 & pc1 & SN1 & SC1 & OW1 & C1 & C2). assert (P1 : usable m1) by (destruct SC1 as (? & ? & ? & ? & ? & ->); exact P).
    split; [eapply reach_env; eassumption|]. destruct (env_seen _ _ _ _ _ _ HI1 R SN1 P1) as (A2 & L2 & SN2 & EE & IL). exists m1, A2, L2, cn1, pc1. split; [exact SN2|]. split; [exact SC1|]. split; [|auto]. eapply owned_fun; [exact OW1|exact EE|apply IL].
Qed.
Theorem statement_balances k x s E T s' m A L cn pc m' A' L' cn' pc' : history e s -> statement e k x s E T s' -> seen e s k m A L -> usable m -> m_coin_vault m <> m_pc_vault m -> seen e s' k m' A' L' ->
  owned x A L cn pc -> owned x A' L' cn' pc' ->
  cn' = cn + zsum coin_in T - zsum coin_out T + zsum coin_trade (events_of x E) /\ pc' = pc + zsum pc_in T - zsum pc_out T + zsum pc_trade (events_of x E).
Proof.
  intros HI ST SN P NV SN' OW OW'. destruct (statement_story k x s E T s' ST HI m A L cn pc SN P NV OW) as (_ & m2 & A2 & L2 & c2 & p2 & SN2 & _ & OW2 & C1 & C2).
  destruct (seen_same e _ _ _ _ _ _ _ _ SN2 SN') as (_ & _ & EE). assert (OW3 : owned x A' L' c2 p2) by (eapply owned_fun; [exact OW2|congruence|intros oo; rewrite (sn_oos _ _ _ _ _ _ SN2), (sn_oos _ _ _ _ _ _ SN'); reflexivity]).
  destruct (owned_one _ _ _ _ _ _ _ _ _ _ _ SN' OW' OW3). subst. auto.
Qed.
Theorem statement_exists k x s E s' : stretch e k s E s' -> history e s -> forall m A L, seen e s k m A L -> usable m -> exists T, statement e k x s E T s'.
Proof.
  intros ST HI m A L SN P.
  assert (X : history e s' /\ (exists m' A' L', seen e s' k m' A' L' /\ same_config m m') /\ exists T, statement e k x s E T s'); [|apply X].
  induction ST as [|E s1 c b ms E1 ST IH G SZ HB LG Q|E s1 s2 ST IH R].
  - split; [exact HI|]. split; [exists m, A, L; split; [exact SN|apply same_config_refl]|]. exists []. constructor.
  - destruct IH as (HI1 & (m1 & A1 & L1 & SN1 & SC1) & T & TT). assert (P1 : usable m1) by (destruct SC1 as (? & ? & ? & ? & ? & ->); exact P). split; [apply reach_tx; assumption|].
    destruct (process_bytes e c s1 b ms) as [s2|?|] eqn:PB.
    + pose proof PB as PB1. unfold process_bytes in PB1. apply rbind_ok in PB1. destruct PB1 as (i & U & H). destruct (unpack b) as [i0|] eqn:UB; cbn [ok_or] in U; [|discriminate]. injection U as ->. destruct (unpack_pack _ _ HB UB) as [WF _].
      assert (ES : transact e c s1 b ms = s2) by (eapply did; eassumption). rewrite ES in *. destruct (seen_after e EO _ _ _ _ _ _ _ _ _ HI1 G SZ LG WF H SN1 P1) as (m2 & A2 & L2 & SN2 & SC2).
      split; [exists m2, A2, L2; split; [exact SN2|eapply same_config_trans; eassumption]|]. eexists. eapply statement_tx; eassumption.
    + assert (ES : transact e c s1 b ms = s1) by (unfold transact; rewrite PB; reflexivity). rewrite ES in *. assert (E1 = []) as -> by (eapply (queued_fun e); [exact Q|]; apply (queued_iff e _ _ _ _ _ _ _ _ _ _ SN1 SN1); exists [], (a_evs A1); rewrite app_nil_r; auto).
      rewrite app_nil_r. split; [eauto|eauto].
    + assert (ES : transact e c s1 b ms = s1) by (unfold transact; rewrite PB; reflexivity). rewrite ES in *. assert (E1 = []) as -> by (eapply (queued_fun e); [exact Q|]; apply (queued_iff e _ _ _ _ _ _ _ _ _ _ SN1 SN1); exists [], (a_evs A1); rewrite app_nil_r; auto).
      rewrite app_nil_r. split; [eauto|eauto].
  - destruct IH as (HI1 & (m1 & A1 & L1 & SN1 & SC1) & T & TT). assert (P1 : usable m1) by (destruct SC1 as (? & ? & ? & ? & ? & ->); exact P). split; [eapply reach_env; eassumption|]. split; [|exists T; eapply statement_env; eassumption].
    destruct (env_seen _ _ _ _ _ _ HI1 R SN1 P1) as (A2 & L2 & SN2 & _). eauto.
Qed.
Theorem statement_closed k x s E T s' m A L m' A' L' : history e s -> statement e k x s E T s' -> seen e s k m A L -> usable m -> m_coin_vault m <> m_pc_vault m -> seen e s' k m' A' L' ->
  (forall oo, ~ In (x, oo) L) -> (forall oo, ~ In (x, oo) L') ->
  zsum coin_out T = zsum coin_in T + zsum coin_trade (events_of x E) /\ zsum pc_out T = zsum pc_in T + zsum pc_trade (events_of x E).
Proof. intros HI ST SN P NV SN' N N'. destruct (statement_balances k x s E T s' m A L 0 0 m' A' L' 0 0 HI ST SN P NV SN' ltac:(right; auto) ltac:(right; auto)). lia. Qed.
End Main.
