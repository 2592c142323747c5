(** Every instruction keeps the invariant of the world: orders, cancels, prunes. *)
From Coq Require Import Permutation.
From Verif Require Import Base BaseProofs Fees ListSum Queue QueueProofs Codec CodecProofs Critbit CritbitSlab Market Matching
  MatchSteps MatchRefine MatchAsk MatchBid MatchRun MatchSpec Ledger LedgerSteps LedgerRun MatchReport MatchOrder MatchFacts Slots Core CoreInv CoreNew CoreCancel CoreConsume CoreSettle CoreFrame Instr InstrProofs
  Store Process StoreProofs World WorldInv WorldLoad WorldRun.

Section Step.
Variable e : env.
Hypothesis EO : env_ok e.
Notation D := (dexd e).
Let NS : e_prog e <> spl_id := eo_spl e EO.

(** Room for [n] more orders in every market's sequence. *)
Definition room (s : store) (n : Z) : Prop := forall k m cq seq, D s k = Some (DMarket m) -> proper m -> D s (m_req_q m) = Some (DReqQ (cq, seq)) -> seq + n < B64.

(** ** Transfers after a quiet write *)
Lemma moved_0 src dst auth x w : moved src dst auth 0 x w = 0.
Proof. unfold moved. destruct (x =? dst), ((x =? src) && (w =? auth)); reflexivity. Qed.
Record deposited (s s1 s' : store) (src v auth amt : Z) : Prop := mkDep {
  dp_D : forall x, D s' x = D s1 x; dp_tdelta : tdelta s s' (moved src v auth amt); dp_amounts : amounts_ok s'; dp_nonneg : 0 <= amt;
  dp_fits : amt = 0 \/ exists t, token_at s v = Some t /\ t_amount t + amt < B64 }.
Lemma quiet_then s s1 s' f : quiet s s1 -> tdelta s1 s' f -> tdelta s s' f.
Proof.
  intros Q T. eapply tdelta_weak; [|eapply tdelta_trans; [apply quiet_tdelta; exact Q|exact T]]. intros. cbn beta. lia.
Qed.
Lemma transfer_in_dep s s1 s' h src v auth amt : quiet s s1 -> amounts_ok s -> transfer_in s1 h src v auth amt = Ok s' -> deposited s s1 s' src v auth amt.
Proof.
  intros Q AM H. pose proof (quiet_amounts _ _ Q AM) as AM1. apply (transfer_in_ok e NS) in H. destruct H as [[-> ->]|(N & T & NE)].
  - constructor; auto; try lia. eapply tdelta_weak; [|apply quiet_tdelta; exact Q]. intros. rewrite moved_0. lia.
  - constructor.
    + apply (tr_dexd _ _ _ _ _ _ _ T).
    + eapply quiet_then; [exact Q|]. eapply transferred_tdelta. exact T.
    + eapply transferred_amounts; eassumption.
    + apply (tr_amt _ _ _ _ _ _ _ T).
    + right. destruct (tr_tok _ _ _ _ _ _ _ T) as (ts & td & _ & TD & _ & _ & _ & _ & _ & TE). replace (src =? v) with false in TE by lia.
      exists td. rewrite <- (qu_tok _ _ Q). split; [exact TD|tauto].
Qed.

(** ** What the invariant says about a loaded market *)
Lemma books_state s k m bids asks q : winv e s -> books e s k m bids asks q -> proper m ->
  exists seq L A, mstate (D s) k m seq L A (mkObs bids asks m q).
Proof.
  intros [W1 W2 W3] [HM NB HB HA HQ] P. destruct (W2 k m HM P) as (seq & L & A & o & M). exists seq, L, A.
  destruct M. replace (mkObs bids asks m q) with o; [constructor; assumption|]. destruct o as [b a mm qq]. cbn [ob_mkt ob_bids ob_asks ob_eq] in *. congruence.
Qed.
Lemma repeat_In {X} (x y : X) n : In y (repeat x n) -> y = x.
Proof. apply repeat_spec. Qed.
Lemma oo_zero_wf : oo_wf oo_zero.
Proof. constructor; cbn [oo_zero oo_free_bits oo_bid_bits oo_orders oo_cids]; unfold u128; try lia; reflexivity. Qed.
Lemma with_oo s m k x w c auth oo seq L A o : wstruct (D s) -> mstate (D s) k m seq L A o ->
  live (D s) k x oo \/ opened e s m x (Some w) (Some c) auth oo ->
  exists rest, cinv o seq ((x, oo) :: rest) A /\ NoDup (map fst rest) /\ (forall y oy, In (y, oy) rest <-> y <> x /\ live (D s) k y oy).
Proof.
  intros W [E1 E2 E3 E4 E5 LS C] [LV|(DZ & _ & _ & u & c' & [= <-] & _ & _ & ->)].
  - destruct (lists_take _ _ _ _ _ LS LV) as (rest & P & ND & NI & IN). exists rest. split; [eapply cinv_perm; eassumption|auto].
  - assert (NL : forall oy, ~ live (D s) k x oy) by (intros oy (F & _); congruence).
    destruct (lists_none _ _ _ _ LS NL) as [NI IN]. exists L. split; [|split; [apply LS|exact IN]].
    assert (NZ : x <> 0) by (intros ->; rewrite (ws_zero _ W) in DZ; discriminate).
    pose proof (open_inv m seq x oo_zero (oo_fresh (m_own m) w) (m_own m) w L A) as O. subst m. pose proof (cinv_ainv _ _ _ _ C) as AI.
    specialize (O AI NI NZ oo_zero_wf eq_refl eq_refl). destruct C. apply ainv_cinv; assumption.
Qed.
Lemma oo_touch s m k x w c auth oo : wstruct (D s) -> D s k = Some (DMarket m) -> live (D s) k x oo \/ opened e s m x w c auth oo ->
  touchable e s k x /\ oo_flags oo = OO_FLAGS /\ oo_market oo = k.
Proof.
  intros W HM [LV|(DZ & _ & _ & u & c' & _ & _ & _ & ->)].
  - split; [right; eauto|]. destruct LV as (_ & F & M). auto.
  - split; [left; assumption|]. split; [reflexivity|]. exact (ws_own _ W k m HM).
Qed.
Lemma proper_links m m' : same_links m m' -> proper m' -> proper m.
Proof. intros (l1 & l2 & l3 & l4 & l5 & l6 & l7 & l8 & l9 & l10 & l11 & l12). unfold proper. rewrite l3, l4, l11, l12. auto. Qed.
Lemma same_links_refl m : same_links m m. Proof. repeat (split; [reflexivity|]). reflexivity. Qed.
Lemma flags_sm m m' : same_market m m' -> m_flags m' = m_flags m. Proof. intros ->. reflexivity. Qed.
Lemma need_split m v : u64 (m_coin_deposits m) -> mkt_u64 m ->
  (v = m_coin_vault m -> m_coin_deposits m <= need m v) /\ (v = m_pc_vault m -> pc_owed m <= need m v).
Proof. intros U (U1 & U2 & U3). unfold need, pc_owed, u64 in *. split; intros ->; rewrite Z.eqb_refl; destruct (_ =? _); lia. Qed.
(** The vaults hold at least what the counters say. *)
Lemma vault_cover s k m : winv e s -> D s k = Some (DMarket m) -> proper m ->
  exists tc tp, token_at s (m_coin_vault m) = Some tc /\ token_at s (m_pc_vault m) = Some tp /\
    m_coin_deposits m <= t_amount tc < B64 /\ pc_owed m <= t_amount tp < B64.
Proof.
  intros [W1 W2 W3] HM P. destruct (W2 k m HM P) as (seq & L & A & o & M). destruct M as [E1 _ _ _ _ _ C].
  pose proof (ci_coin_dep _ _ _ _ C) as U1. pose proof (ci_mkt _ _ _ _ C) as U2. rewrite E1 in U1, U2.
  destruct (wv_coin _ _ W3 k m HM) as (tc & []). destruct (wv_pc _ _ W3 k m HM) as (tp & []). exists tc, tp.
  pose proof (wv_amt _ _ W3 _ _ vo_tok). pose proof (wv_amt _ _ W3 _ _ vo_tok0). specialize (vo_need P). specialize (vo_need0 P).
  destruct (need_split m (m_coin_vault m) U1 U2) as [N1 _]. destruct (need_split m (m_pc_vault m) U1 U2) as [_ N2]. specialize (N1 eq_refl). specialize (N2 eq_refl).
  unfold u64 in *. split; [assumption|]. split; [assumption|]. lia.
Qed.

(** Only the market that took part may use up sequence numbers. *)
Lemma room_step s s' k m m' j n : wstruct (D s) -> dstep (D s) (D s') k m m' -> 0 <= j ->
  (proper m -> forall c0 sq, D s' (m_req_q m) = Some (DReqQ (c0, sq)) -> exists c1 sq1, D s (m_req_q m) = Some (DReqQ (c1, sq1)) /\ sq <= sq1 + j) ->
  room s (n + j) -> room s' n.
Proof.
  intros W DS J RQ RO kx mx cq seq HX P HR. destruct (Z.eq_dec kx k) as [->|N].
  - rewrite (ds_mkt' _ _ _ _ _ DS) in HX. injection HX as <-. pose proof (ds_links _ _ _ _ _ DS) as SL. pose proof (proper_links _ _ SL P) as P0.
    destruct SL as (_ & _ & _ & _ & l5 & _). rewrite l5 in HR. destruct (RQ P0 _ _ HR) as (c1 & sq1 & E & LE). pose proof (RO k m c1 sq1 (ds_mkt _ _ _ _ _ DS) P0 E). lia.
  - pose proof (market_was (D s) (D s') k m m' W DS kx mx HX N) as HX'. destruct (other_links (D s) (D s') k m m' W DS kx mx HX' N) as (_ & _ & E & _). rewrite E in HR.
    pose proof (RO kx mx cq seq HX' P HR). lia.
Qed.

(** ** NewOrderV3 *)
Section NewOrder.
Variables (s : store) (c : clock) (ix : order_ix) (ms : list meta) (s' : store) (k x payer w : Z) (m : market) (bids asks : slab)
    (q : queue event) (rq : Z * Z) (t : tier) (oo : open_orders) (pt : token) (o' : obs) (rq' : Z * Z) (oo' : open_orders) (dep : Z).
Hypothesis (WI : winv e s) (R : ran_new_order e s c ix ms s' k x payer w m bids asks q rq t oo pt o' rq' oo' dep) (LG : legal e ms).
Let W := wi_str _ _ WI.
Let B := rn_books _ _ _ _ _ _ _ _ _ _ _ _ _ _ _ _ _ _ _ _ _ _ R.
Let vault := match oi_side ix with Bid => m_pc_vault m | Ask => m_coin_vault m end.
Lemma no_view : (forall y, D s' y = overlay e s k m o' rq' (Some (x, oo')) y) /\ tdelta s s' (moved payer vault w dep) /\ amounts_ok s' /\ 0 <= dep /\
  (dep = 0 \/ exists tv, token_at s vault = Some tv /\ t_amount tv + dep < B64).
Proof.
  destruct R. destruct rn_books as [HM NB HB HA HQ]. destruct (oo_touch s m k x _ _ _ oo W HM rn_oo) as (T & _ & _).
  pose proof (write_obs_D e s k m bids asks q rq HM NB HB HA HQ rn_req o') as V1. pose proof (write_obs_quiet e EO s k m bids asks q rq HM NB HB HA HQ rn_req o') as Q1.
  set (s1 := write_obs s k (m_bids m) (m_asks m) (m_event_q m) o') in *.
  assert (V2 : forall y, D (put_data s1 (m_req_q m) (DReqQ rq')) y = overlay e s k m o' rq' None y) by (intros; eapply put_req_D; eauto).
  assert (R1 : exists d, D s1 (m_req_q m) = Some d).
  { rewrite V1. unfold overlay. repeat match goal with |- context [if ?b then _ else _] => destruct b end; eauto. }
  destruct R1 as (d1 & R1). pose proof (quiet_put e EO _ _ (DReqQ rq') _ R1) as Q2. set (s2 := put_data s1 _ _) in *.
  assert (V3 : forall y, D (put_data s2 x (DOO oo')) y = overlay e s k m o' rq' (Some (x, oo')) y) by (intros; eapply put_oo_D; eauto).
  assert (R2 : exists d, D s2 x = Some d) by (rewrite (over_touch e s k m bids asks q rq W HM NB HB HA HQ rn_req s2 o' rq' x T V2); eapply touch_some; exact T).
  destruct R2 as (d2 & R2). pose proof (quiet_put e EO _ _ (DOO oo') _ R2) as Q3. set (s3 := put_data s2 _ _) in *.
  pose proof (quiet_trans _ _ _ (quiet_trans _ _ _ Q1 Q2) Q3) as Q.
  destruct (transfer_in_dep _ _ _ _ _ _ _ _ Q (wv_amt _ _ (wi_vlt _ _ WI)) rn_move) as [P1 P2 P3 P4 P5]. split; [intros y; rewrite P1; apply V3|]. auto.
Qed.
Lemma no_frame : same_market m (ob_mkt o') /\ same_id oo oo' /\ fst rq = 0 /\ rq' = (fst rq, snd rq').
Proof. apply (new_order_core_frame _ _ _ _ _ _ _ _ _ _ _ _ (rn_core _ _ _ _ _ _ _ _ _ _ _ _ _ _ _ _ _ _ _ _ _ _ R)). Qed.
Lemma no_next : touchable e s k x /\ oo_next k oo' /\ live (D s') k x oo'.
Proof.
  destruct (oo_touch s m k x _ _ _ oo W (bk_mkt _ _ _ _ _ _ _ B) (rn_oo _ _ _ _ _ _ _ _ _ _ _ _ _ _ _ _ _ _ _ _ _ _ R)) as (T & F & M).
  destruct no_frame as (_ & (I1 & I2 & I3) & _). split; [assumption|]. split; [left; split; congruence|]. split; [|split; congruence].
  destruct no_view as (V & _). destruct B as [HM NB HB HA HQ]. pose proof (rn_req _ _ _ _ _ _ _ _ _ _ _ _ _ _ _ _ _ _ _ _ _ _ R) as HR.
  destruct (touch_distinct e s k m bids asks q rq W HM HB HA HQ HR x T) as (t1 & t2 & t3 & t4 & t5 & _). rewrite V. unfold overlay.
  replace (x =? k) with false by lia. replace (x =? m_bids m) with false by lia. replace (x =? m_asks m) with false by lia.
  replace (x =? m_event_q m) with false by lia. replace (x =? m_req_q m) with false by lia. rewrite Z.eqb_refl. reflexivity.
Qed.
Lemma no_fits : proper m -> pc_owed m + (match oi_side ix with Bid => dep | Ask => 0 end) < B64.
Proof.
  intros P. destruct (vault_cover s k m WI (bk_mkt _ _ _ _ _ _ _ B) P) as (tc & tp & T1 & T2 & C1 & C2). destruct no_view as (_ & _ & _ & N & F). unfold vault in F.
  destruct (oi_side ix); [|lia]. destruct F as [->|(tv & F1 & F2)]; [lia|]. assert (tv = tp) by congruence. subst tv. lia.
Qed.
(** The market afterwards. *)
Lemma no_state : order_ix_ok ix -> proper m -> snd rq + 1 < B64 ->
  exists seq rest A A', rq = (0, seq) /\ rq' = (0, seq + 1) /\ cinv (mkObs bids asks m q) seq ((x, oo) :: rest) A /\ cinv o' (seq + 1) ((x, oo') :: rest) A' /\
    lists (D s') k ((x, oo') :: rest) /\ (forall y oy, In (y, oy) rest <-> y <> x /\ live (D s) k y oy) /\
    mstate (D s') k (ob_mkt o') (seq + 1) ((x, oo') :: rest) A' o' /\
    order_done (mkObs bids asks m q) o' oo oo' ix dep /\ dep <= t_amount pt /\
    exists o1 slot lk pr tr q' n E F Rb, same_market m (ob_mkt o1) /\
      order_result o1 A (oi_side ix) (oi_ot ix) (oi_price ix * B64 + seq_part (oi_side ix) seq) x slot t (oi_qty ix) lk (oi_cid ix)
        (oi_st ix) (Z.to_nat (oi_limit ix)) o' pr A' tr q' n E F Rb /\
      placed oo oo' ix (m_coin_lot m) dep slot (oi_price ix * B64 + seq_part (oi_side ix) seq) pr /\
      lk = (match oi_side ix with Bid => oi_pc ix | Ask => 0 end) /\
      ob_mkt o' = set_counters m (m_coin_deposits m + match oi_side ix with Ask => dep | Bid => 0 end)
        (m_pc_deposits m + (match oi_side ix with Bid => dep | Ask => 0 end) - F) (m_pc_fees m + F - Rb) (m_rebates m + Rb).
Proof.
  intros IX P RM. destruct (books_state s k m bids asks q WI B P) as (seq & L & A & MS). pose proof B as [HM NB HB HA HQ].
  assert (EQ : rq = (0, seq)) by (pose proof (ms_req _ _ _ _ _ _ _ MS) as E; pose proof (rn_req _ _ _ _ _ _ _ _ _ _ _ _ _ _ _ _ _ _ _ _ _ _ R); congruence).
  pose proof (rn_core _ _ _ _ _ _ _ _ _ _ _ _ _ _ _ _ _ _ _ _ _ _ R) as HC. rewrite EQ in HC, RM.
  destruct (with_oo _ _ _ _ _ _ _ _ _ _ _ _ W MS (rn_oo _ _ _ _ _ _ _ _ _ _ _ _ _ _ _ _ _ _ _ _ _ _ R)) as (rest & C & ND & IN).
  destruct (new_order_inv _ _ _ _ _ _ _ _ _ _ _ _ _ _ _ C IX RM HC (no_fits P)) as (A' & C' & ER & OD & DB & RES).
  exists seq, rest, A, A'. split; [assumption|]. split; [assumption|]. split; [assumption|]. split; [assumption|].
  pose proof (rn_req _ _ _ _ _ _ _ _ _ _ _ _ _ _ _ _ _ _ _ _ _ _ R) as HR. destruct no_view as (V & _). destruct no_next as (T & NX & LV). destruct no_frame as (SM & _).
  assert (LS : lists (D s') k ((x, oo') :: rest)).
  { eapply lists_put; [exact ND|exact IN| |exact LV]. intros y oy Ny.
    eapply over_live with (1 := HM) (bids := bids) (asks := asks) (q := q) (rq := rq); eauto; intros a1 oo1 [= <- <-]; auto. }
  split; [assumption|]. split; [assumption|]. split; [|auto].
  eapply over_mstate with (m := m) (bids := bids) (asks := asks) (q := q) (rq := rq); eauto; try (apply same_links_sm; exact SM); intros a1 oo1 [= <- <-]; auto.
Qed.
Lemma no_dstep : dstep (D s) (D s') k m (ob_mkt o').
Proof.
  destruct no_view as (V & _). destruct no_frame as (SM & _). destruct no_next as (T & NX & LV). pose proof B as [HM NB HB HA HQ].
  pose proof (rn_req _ _ _ _ _ _ _ _ _ _ _ _ _ _ _ _ _ _ _ _ _ _ R) as HR.
  eapply over_dstep with (bids := bids) (asks := asks) (q := q) (rq := rq); eauto.
  - apply same_links_sm; exact SM.
  - rewrite (flags_sm _ _ SM). exact (ws_flags _ W _ _ HM).
  - intros a1 oo1 [= <- <-]. auto.
Qed.
Lemma no_room n : order_ix_ok ix -> (proper m -> snd rq + 1 < B64) -> room s (n + 1) -> room s' n.
Proof.
  intros IX RM RO. apply (room_step s s' k m (ob_mkt o') 1 n W no_dstep); [lia| |exact RO].
  intros P c0 sq HR'. destruct (no_state IX P (RM P)) as (seq & rest & A & A' & EQ & _ & _ & _ & _ & _ & MS & _). exists 0, seq. split.
  - rewrite <- EQ. exact (rn_req _ _ _ _ _ _ _ _ _ _ _ _ _ _ _ _ _ _ _ _ _ _ R).
  - pose proof (ms_req _ _ _ _ _ _ _ MS) as E. destruct (same_links_sm _ _ (proj1 no_frame)) as (_ & _ & _ & _ & l5 & _). rewrite l5 in E. assert ((c0, sq) = (0, seq + 1)) as [= -> ->] by congruence. lia.
Qed.
Lemma step_new_order : order_ix_ok ix -> (proper m -> snd rq + 1 < B64) -> winv e s'.
Proof.
  intros IX RM. destruct no_view as (V & TD & AM & DN & _). destruct no_frame as (SM & _). destruct no_next as (T & NX & LV). pose proof B as [HM NB HB HA HQ].
  pose proof (rn_req _ _ _ _ _ _ _ _ _ _ _ _ _ _ _ _ _ _ _ _ _ _ R) as HR.
  assert (SL : same_links m (ob_mkt o')) by (apply same_links_sm; exact SM).
  assert (NP : ~ is_pda e w) by (eapply signed_legal; [exact LG|exact (rn_sign _ _ _ _ _ _ _ _ _ _ _ _ _ _ _ _ _ _ _ _ _ _ R)]).
  assert (MV : forall y p, is_pda e p -> moved payer vault w dep y p = if y =? vault then dep else 0).
  { intros y p PD. unfold moved. replace (p =? w) with false by (destruct (Z.eqb_spec p w) as [->|]; [contradiction|reflexivity]). rewrite andb_false_r. lia. }
  eapply (winv_step e EO s s' k m (ob_mkt o')); [exact WI| |exact AM| |exact TD| |].
  - exact no_dstep.
  - intros P. apply (proper_links _ _ SL) in P. destruct (no_state IX P (RM P)) as (seq & rest & A & A' & _ & _ & _ & _ & _ & _ & MS & _). eauto.
  - intros p w0 y _ PD _. rewrite MV by assumption. destruct (y =? vault); lia.
  - intros P p v HP VE. assert (PD : is_pda e p) by (exists (m_nonce m), k; exact HP). rewrite MV by assumption.
    destruct (no_state IX P (RM P)) as (seq & rest & A & A' & _ & _ & _ & _ & _ & _ & _ & OD & _). destruct OD. cbn [ob_mkt] in *.
    destruct SL as (_ & _ & _ & _ & _ & _ & l7 & l8 & _). unfold need. rewrite l7, l8. unfold vault. destruct (oi_side ix), (v =? m_coin_vault m), (v =? m_pc_vault m); lia.
Qed.
End NewOrder.

(** ** Payments out of a vault *)
Record paid (s s' : store) (v dst p amt : Z) : Prop := mkPaid {
  pd_D : forall x, D s' x = D s x; pd_tdelta : tdelta s s' (moved v dst p amt); pd_amounts : amounts_ok s -> amounts_ok s'; pd_nonneg : 0 <= amt }.
Lemma send_paid s s' v dst p amt : send_from_vault s v dst p amt = Ok s' -> paid s s' v dst p amt.
Proof.
  intros H. apply (send_from_vault_ok e NS) in H. constructor.
  - apply (tr_dexd _ _ _ _ _ _ _ H).
  - eapply transferred_tdelta. exact H.
  - intros. eapply transferred_amounts; eassumption.
  - apply (tr_amt _ _ _ _ _ _ _ H).
Qed.
Lemma paid_nothing s v dst p : paid s s v dst p 0.
Proof.
  constructor; auto; [|lia]. eapply tdelta_weak; [|apply tdelta_refl; reflexivity]. intros. rewrite moved_0. lia.
Qed.

(** ** SendTake *)
Section SendTake.
Variables (s : store) (ix : take_ix) (ms : list meta) (s' : store) (k cw pw w p : Z) (m : market) (bids asks : slab)
    (q : queue event) (rq : Z * Z) (t : tier) (o' : obs) (rq' : Z * Z) (dep wd : Z) (s2 : store).
Hypothesis (WI : winv e s) (R : ran_send_take e s ix ms s' k cw pw w p m bids asks q rq t o' rq' dep wd s2) (LG : legal e ms).
Let W := wi_str _ _ WI.
Let src := match ti_side ix with Bid => pw | Ask => cw end.
Let dv := match ti_side ix with Bid => m_pc_vault m | Ask => m_coin_vault m end.
Let wv := match ti_side ix with Bid => m_coin_vault m | Ask => m_pc_vault m end.
Let dst := match ti_side ix with Bid => cw | Ask => pw end.
Let f x u := moved src dv w dep x u + moved wv dst p wd x u.
Lemma st_view : (forall y, D s' y = overlay e s k m o' rq' None y) /\ tdelta s s' f /\ amounts_ok s' /\ 0 <= dep /\ 0 <= wd /\
  (dep = 0 \/ exists tv, token_at s dv = Some tv /\ t_amount tv + dep < B64).
Proof.
  destruct R as [r1 r2 r3 [HM NB HB HA HQ] HR r6 r7 r8 r9].
  pose proof (write_obs_D e s k m bids asks q rq HM NB HB HA HQ HR o') as V1. pose proof (write_obs_quiet e EO s k m bids asks q rq HM NB HB HA HQ HR o') as Q1.
  set (s1 := write_obs s k (m_bids m) (m_asks m) (m_event_q m) o') in *.
  assert (V2 : forall y, D (put_data s1 (m_req_q m) (DReqQ rq')) y = overlay e s k m o' rq' None y) by (intros; eapply put_req_D; eauto).
  assert (R1 : exists d, D s1 (m_req_q m) = Some d).
  { rewrite V1. unfold overlay. repeat match goal with |- context [if ?b then _ else _] => destruct b end; eauto. }
  destruct R1 as (d1 & R1). pose proof (quiet_put e EO _ _ (DReqQ rq') _ R1) as Q2. set (sx := put_data s1 _ _) in *.
  pose proof (quiet_trans _ _ _ Q1 Q2) as Q.
  destruct (transfer_in_dep _ _ _ _ _ _ _ _ Q (wv_amt _ _ (wi_vlt _ _ WI)) r8) as [P1 P2 P3 P4 P5].
  assert (PD : paid s2 s' wv dst p wd) by (destruct (Z.eqb_spec wd 0) as [->|N]; [subst s'; apply paid_nothing|apply send_paid; exact r9]).
  destruct PD as [D1 D2 D3 D4]. split; [intros y; rewrite D1, P1; apply V2|]. split; [|auto].
  eapply tdelta_trans; eassumption.
Qed.
Lemma st_frame : same_market m (ob_mkt o') /\ rq' = (fst rq, snd rq').
Proof. apply (send_take_core_frame _ _ _ _ _ _ _ _ (rt_core _ _ _ _ _ _ _ _ _ _ _ _ _ _ _ _ _ _ _ _ _ R)). Qed.
Lemma st_fits : proper m -> m_coin_deposits m + (match ti_side ix with Ask => dep | Bid => 0 end) < B64 /\
  pc_owed m + (match ti_side ix with Bid => dep | Ask => 0 end) < B64.
Proof.
  intros P. pose proof (rt_books _ _ _ _ _ _ _ _ _ _ _ _ _ _ _ _ _ _ _ _ _ R) as B.
  destruct (vault_cover s k m WI (bk_mkt _ _ _ _ _ _ _ B) P) as (tc & tp & T1 & T2 & C1 & C2). destruct st_view as (_ & _ & _ & _ & _ & F). unfold dv in F.
  destruct (ti_side ix); (split; [|]; try lia); (destruct F as [->|(tv & F1 & F2)]; [lia|]); [assert (tv = tp) by congruence|assert (tv = tc) by congruence]; subst tv; lia.
Qed.
Lemma st_state : take_ix_ok ix -> proper m -> snd rq + 1 < B64 ->
  exists seq L A A', rq = (0, seq) /\ rq' = (0, seq + 1) /\ lists (D s) k L /\ cinv (mkObs bids asks m q) seq L A /\ cinv o' (seq + 1) L A' /\
    mstate (D s') k (ob_mkt o') (seq + 1) L A' o' /\ take_done (mkObs bids asks m q) o' ix dep wd /\
    exists o1 pr tr q' n E F Rb, same_market (ob_mkt o1) (ob_mkt o') /\
      order_result (mkObs bids asks m q) A (ti_side ix) ImmediateOrCancel (ti_price ix * B64 + seq_part (ti_side ix) seq) 0 0 t (ti_qty ix)
        (match ti_side ix with Bid => ti_pc ix | Ask => 0 end) 0 AbortTransaction (Z.to_nat (ti_limit ix)) o1 pr A' tr q' n E F Rb /\
      match ti_side ix with
      | Bid => dep = p_pc_debit pr /\ wd = p_coin_credit pr * m_coin_lot m /\ ti_min_coin ix <= p_coin_credit pr
      | Ask => dep = p_coin_debit pr * m_coin_lot m /\ wd = p_pc_credit pr /\ ti_min_pc ix <= p_pc_credit pr end /\
      ob_mkt o' = set_counters m (m_coin_deposits m + match ti_side ix with Ask => dep | Bid => - wd end)
        (m_pc_deposits m + (match ti_side ix with Bid => dep | Ask => - wd end) - F) (m_pc_fees m + F - Rb) (m_rebates m + Rb).
Proof.
  intros IX P RM. pose proof (rt_books _ _ _ _ _ _ _ _ _ _ _ _ _ _ _ _ _ _ _ _ _ R) as B. pose proof (rt_req _ _ _ _ _ _ _ _ _ _ _ _ _ _ _ _ _ _ _ _ _ R) as HR.
  destruct (books_state s k m bids asks q WI B P) as (seq & L & A & MS). pose proof B as [HM NB HB HA HQ].
  assert (EQ : rq = (0, seq)) by (pose proof (ms_req _ _ _ _ _ _ _ MS) as E; congruence).
  pose proof (rt_core _ _ _ _ _ _ _ _ _ _ _ _ _ _ _ _ _ _ _ _ _ R) as HC. rewrite EQ in HC, RM.
  destruct (st_fits P) as [F1 F2]. pose proof (ms_inv _ _ _ _ _ _ _ MS) as C.
  destruct (send_take_inv _ _ _ _ _ _ _ _ _ _ _ C IX RM HC F1 F2) as (A' & C' & ER & TD & RES).
  exists seq, L, A, A'. split; [assumption|]. split; [assumption|]. split; [apply MS|]. split; [assumption|]. split; [assumption|].
  destruct st_view as (V & _). destruct st_frame as (SM & _).
  assert (LS : lists (D s') k L).
  { eapply lists_same; [|exact (ms_lists _ _ _ _ _ _ _ MS)]. intros y oy.
    eapply over_live with (1 := HM) (bids := bids) (asks := asks) (q := q) (rq := rq); eauto; intros; discriminate. }
  split; [|split; [exact TD|exact RES]].
  eapply over_mstate with (m := m) (bids := bids) (asks := asks) (q := q) (rq := rq); eauto; try (apply same_links_sm; exact SM); intros; discriminate.
Qed.
Lemma step_send_take : take_ix_ok ix -> (proper m -> snd rq + 1 < B64) -> winv e s'.
Proof.
  intros IX RM. destruct st_view as (V & TD & AM & DN & WN & _). destruct st_frame as (SM & _). 
  pose proof (rt_books _ _ _ _ _ _ _ _ _ _ _ _ _ _ _ _ _ _ _ _ _ R) as [HM NB HB HA HQ]. pose proof (rt_req _ _ _ _ _ _ _ _ _ _ _ _ _ _ _ _ _ _ _ _ _ R) as HR.
  pose proof (rt_pda _ _ _ _ _ _ _ _ _ _ _ _ _ _ _ _ _ _ _ _ _ R) as HP.
  assert (SL : same_links m (ob_mkt o')) by (apply same_links_sm; exact SM).
  assert (NP : ~ is_pda e w) by (eapply signed_legal; [exact LG|exact (rt_sign _ _ _ _ _ _ _ _ _ _ _ _ _ _ _ _ _ _ _ _ _ R)]).
  assert (MV : forall y u, is_pda e u -> moved src dv w dep y u = if y =? dv then dep else 0).
  { intros y u PD. unfold moved. replace (u =? w) with false by (destruct (Z.eqb_spec u w) as [->|]; [contradiction|reflexivity]). rewrite andb_false_r. lia. }
  eapply (winv_step e EO s s' k m (ob_mkt o')); [exact WI| |exact AM| |exact TD| |].
  - eapply over_dstep with (bids := bids) (asks := asks) (q := q) (rq := rq); eauto.
    + rewrite (flags_sm _ _ SM). exact (ws_flags _ W _ _ HM).
    + intros; discriminate.
  - intros P. apply (proper_links _ _ SL) in P. destruct (st_state IX P (RM P)) as (seq & L & A & A' & _ & _ & _ & _ & _ & MS & _). eauto.
  - intros p0 w0 y HP0 PD NW. assert (p0 = p) by congruence. subst p0. unfold f. rewrite MV by assumption. unfold moved.
    replace (w0 =? p) with false by lia. rewrite andb_false_r. destruct (y =? dv), (y =? dst); lia.
  - intros P p0 v HP0 VE. assert (p0 = p) by congruence. subst p0. assert (PD : is_pda e p) by (exists (m_nonce m), k; exact HP). unfold f. rewrite MV by assumption.
    unfold moved. rewrite Z.eqb_refl, andb_true_r.
    destruct (st_state IX P (RM P)) as (seq & L & A & A' & _ & _ & _ & _ & _ & _ & OD & _). destruct OD. cbn [ob_mkt] in *.
    destruct SL as (_ & _ & _ & _ & _ & _ & l7 & l8 & _). unfold need. rewrite l7, l8. unfold dv, wv, dst.
    destruct (ti_side ix), (v =? m_coin_vault m), (v =? m_pc_vault m), (v =? cw), (v =? pw); lia.
Qed.
End SendTake.

(** ** Cancels and Prune *)
Section Cancel.
Variables (s : store) (core : obs -> Z -> open_orders -> res (obs * open_orders)) (s' : store) (k x w : Z) (m : market)
    (bids asks : slab) (q : queue event) (oo : open_orders) (o' : obs) (oo' : open_orders).
Hypothesis (WI : winv e s) (R : ran_cancel e s core s' k x w m bids asks q oo o' oo')
  (FR : ob_mkt o' = m /\ same_id oo oo')
  (CI : forall seq L A, cinv (mkObs bids asks m q) seq ((x, oo) :: L) A -> exists A', cinv o' seq ((x, oo') :: L) A').
Let W := wi_str _ _ WI.
Lemma ca_req : exists rq, D s (m_req_q m) = Some (DReqQ rq).
Proof. exact (ws_req _ W k m (bk_mkt _ _ _ _ _ _ _ (rc_books _ _ _ _ _ _ _ _ _ _ _ _ _ _ R))). Qed.
Lemma ca_view rq : D s (m_req_q m) = Some (DReqQ rq) -> (forall y, D s' y = overlay e s k m o' rq (Some (x, oo')) y) /\ quiet s s' /\ live (D s') k x oo'.
Proof.
  intros HR. destruct R as [r1 [HM NB HB HA HQ] LV r4 r5 ->]. pose proof LV as (LD & LF & LM). destruct FR as [FM (I1 & I2 & I3)].
  assert (T : touchable e s k x) by (right; eauto).
  pose proof (write_obs_D e s k m bids asks q rq HM NB HB HA HQ HR o') as V1. pose proof (write_obs_quiet e EO s k m bids asks q rq HM NB HB HA HQ HR o') as Q1.
  set (s1 := write_obs s k (m_bids m) (m_asks m) (m_event_q m) o') in *.
  assert (V3 : forall y, D (put_data s1 x (DOO oo')) y = overlay e s k m o' rq (Some (x, oo')) y) by (intros; eapply put_oo_D; eauto).
  assert (R2 : exists d, D s1 x = Some d) by (rewrite (over_touch e s k m bids asks q rq W HM NB HB HA HQ HR s1 o' rq x T V1); eauto).
  destruct R2 as (d2 & R2). pose proof (quiet_put e EO _ _ (DOO oo') _ R2) as Q3. split; [exact V3|]. split; [eauto using quiet_trans|].
  split; [|split; congruence]. rewrite (dexd_put_owned e s1 x _ x _ R2), Z.eqb_refl. reflexivity.
Qed.
Lemma ca_state : proper m -> exists seq rest A A', D s (m_req_q m) = Some (DReqQ (0, seq)) /\ cinv (mkObs bids asks m q) seq ((x, oo) :: rest) A /\
  (forall y oy, In (y, oy) rest <-> y <> x /\ live (D s) k y oy) /\ mstate (D s') k m seq ((x, oo') :: rest) A' o'.
Proof.
  intros P. pose proof (rc_books _ _ _ _ _ _ _ _ _ _ _ _ _ _ R) as B.
  destruct (books_state s k m bids asks q WI B P) as (seq & L & A & MS). pose proof B as [HM NB HB HA HQ]. pose proof (rc_oo _ _ _ _ _ _ _ _ _ _ _ _ _ _ R) as LV.
  destruct (lists_take _ _ _ _ _ (ms_lists _ _ _ _ _ _ _ MS) LV) as (rest & PM & ND & NI & IN).
  pose proof (cinv_perm _ _ _ _ _ PM (ms_inv _ _ _ _ _ _ _ MS)) as C. destruct (CI _ _ _ C) as (A' & C'). pose proof (ms_req _ _ _ _ _ _ _ MS) as HR.
  exists seq, rest, A, A'. split; [assumption|]. split; [assumption|]. split; [assumption|].
  destruct (ca_view _ HR) as (V & Q & LV'). pose proof FR as [FM FI].
  assert (TN : touchable e s k x /\ oo_next k oo') by (split; [right; eauto|]; left; destruct LV' as (_ & ? & ?); auto).
  assert (LS : lists (D s') k ((x, oo') :: rest)).
  { eapply lists_put; [exact ND|exact IN| |exact LV']. intros y oy Ny.
    eapply over_live with (1 := HM) (bids := bids) (asks := asks) (q := q) (rq := (0, seq)); eauto; intros a1 oo1 [= <- <-]; auto. }
  replace (mstate (D s') k m) with (mstate (D s') k (ob_mkt o')) by (rewrite FM; reflexivity).
  assert (SL : same_links m (ob_mkt o')) by (rewrite FM; apply same_links_refl).
  eapply over_mstate with (m := m) (bids := bids) (asks := asks) (q := q) (rq := (0, seq)); eauto; intros a1 oo1 [= <- <-]; auto.
Qed.
Lemma ca_dstep : dstep (D s) (D s') k m m.
Proof.
  destruct ca_req as (rq & HR). destruct (ca_view rq HR) as (V & Q & LV'). pose proof (rc_books _ _ _ _ _ _ _ _ _ _ _ _ _ _ R) as [HM NB HB HA HQ].
  pose proof (rc_oo _ _ _ _ _ _ _ _ _ _ _ _ _ _ R) as LV. destruct FR as [FM (I1 & I2 & I3)]. rewrite <- FM at 2.
  eapply over_dstep with (bids := bids) (asks := asks) (q := q) (rq := rq); eauto.
  - rewrite FM. apply same_links_refl.
  - rewrite FM. exact (ws_flags _ W _ _ HM).
  - intros a1 oo1 [= <- <-]. split; [right; eauto|]. left. destruct LV as (_ & F & M). split; congruence.
Qed.
Lemma ca_room n : room s n -> room s' n.
Proof.
  intros RO. apply (room_step s s' k m m 0 n W ca_dstep); [lia| |rewrite Z.add_0_r; exact RO].
  intros P c0 sq HR'. destruct (ca_state P) as (seq & rest & A & A' & HR & _ & _ & MS). exists 0, seq. split; [exact HR|].
  pose proof (ms_req _ _ _ _ _ _ _ MS) as E. assert ((c0, sq) = (0, seq)) as [= -> ->] by congruence. lia.
Qed.
Lemma step_cancel : winv e s'.
Proof.
  destruct ca_req as (rq & HR). destruct (ca_view rq HR) as (V & Q & LV'). pose proof (rc_books _ _ _ _ _ _ _ _ _ _ _ _ _ _ R) as [HM NB HB HA HQ].
  pose proof (rc_oo _ _ _ _ _ _ _ _ _ _ _ _ _ _ R) as LV. destruct FR as [FM (I1 & I2 & I3)].
  assert (SL : same_links m (ob_mkt o')) by (rewrite FM; apply same_links_refl).
  eapply (winv_step e EO s s' k m (ob_mkt o')); [exact WI| |exact (quiet_amounts _ _ Q (wv_amt _ _ (wi_vlt _ _ WI)))| |apply quiet_tdelta; exact Q| |].
  - eapply over_dstep with (bids := bids) (asks := asks) (q := q) (rq := rq); eauto.
    + rewrite FM. exact (ws_flags _ W _ _ HM).
    + intros a1 oo1 [= <- <-]. split; [right; eauto|]. left. destruct LV as (_ & F & M). split; congruence.
  - intros P. apply (proper_links _ _ SL) in P. destruct (ca_state P) as (seq & rest & A & A' & _ & _ & _ & MS). rewrite FM. eauto.
  - intros. lia.
  - intros. rewrite FM. lia.
Qed.
End Cancel.
End Step.
