(** A replace works or the stated reason is true. *)
From Coq Require Import Permutation.
From Verif Require Import Base BaseProofs Fees FeesProofs ListSum Queue QueueProofs Codec CodecProofs Critbit CritbitProofs CritbitSlab Market Matching MatchSteps MatchRefine MatchAsk MatchBid MatchRun MatchSpec Ledger LedgerSteps LedgerRun MatchReport MatchOrder MatchFacts Slots Core CoreInv CoreNew CoreCancel CoreFrame Instr InstrProofs Store Process StoreProofs World WorldInv WorldLoad WorldRun WorldStep WorldStep2 WorldInit WorldMain WorldSpec WorldFacts WorldFwd WorldCancel WorldCids WorldPay OpenSpec PlaceSpec CorePlace MatchBlame CoreBlame WorldTrade WorldPlace WorldAuth WorldRights WorldSizes ProxyAmounts TakeSpec ErrorSpec ErrorProofs ReplaceErrorSpec.

Section Replace.
Variable e : env.
Hypothesis EO : env_ok e.
Notation D := (dexd e).

Lemma room_less s n p : room e s n -> p <= n -> room e s p.
Proof. intros R L k m cq sq G1 G2 G3. pose proof (R _ _ _ _ G1 G2 G3). lia. Qed.
(** One order of a replace that works: what the next one finds. *)
Lemma order_step c ms k x payer w ix s s1 m A L oo n : legal e ms -> key_at ms 0 = Some k -> key_at ms 1 = Some x -> key_at ms 6 = Some payer -> signs ms 7 w -> order_ix_ok ix ->
  winv e s -> seen e s k m A L -> usable m -> In (x, oo) L -> oo_owner oo = w -> room e s (n + 1) -> 0 <= n -> proc_new_order e c s ix ms = Ok s1 ->
  exists t m1 A1 L1 oo1, tier_for s k w (key_at ms 12) t /\ orders e s s1 k m A L ix t x payer oo /\
    winv e s1 /\ room e s1 n /\ seen e s1 k m1 A1 L1 /\ usable m1 /\ In (x, oo1) L1 /\ oo_owner oo1 = w /\
    m_flags m1 = m_flags m /\ m_coin_vault m1 = m_coin_vault m /\ m_pc_vault m1 = m_pc_vault m /\ m_coin_mint m1 = m_coin_mint m /\ m_pc_mint m1 = m_pc_mint m /\
    m_req_q m1 = m_req_q m /\ m_event_q m1 = m_event_q m /\ m_bids m1 = m_bids m /\ m_asks m1 = m_asks m /\ m_coin_lot m1 = m_coin_lot m.
Proof.
  intros LG K0 K1 K6 SG IX WI SN P IN OW RO HN H1.
  destruct (order_one e EO s c ix ms s1 n WI LG IX RO HN H1) as [WI1 RO1].
  assert (RM1 : room e s 1) by (eapply room_less; [exact RO|lia]).
  destruct (order_effect e EO s k m A L WI SN P RM1 c ix ms s1 H1 K0 IX) as (x1 & w1 & t & payer1 & oo1 & E1 & SG1 & E6 & OW1 & TF & LO & OD).
  assert (x1 = x) by congruence. subst x1. assert (payer1 = payer) by congruence. subst payer1.
  pose proof (proj1 (sn_oos _ _ _ _ _ _ SN x oo) IN) as LV.
  assert (oo1 = oo). { destruct LO as [LO|(LO & _)]; [|destruct LV; congruence]. apply (sn_oos _ _ _ _ _ _ SN) in LO. destruct LO, LV. congruence. } subst oo1.
  assert (EW : w1 = w) by congruence. rewrite EW in *. clear EW w1.
  pose proof OD as (m' & A' & L' & oo' & tr & q' & n' & E & slot & id & dep & OD'). cbv zeta in OD'. destruct OD' as (_ & _ & SN' & IL & _ & _ & (F1 & F2 & F3) & _ & _ & _ & MM).
  assert (CF : exists a b c' d, m' = set_counters m a b c' d).
  { destruct (oi_side ix); destruct MM as (_ & _ & _ & _ & ->); repeat eexists. }
  destruct CF as (a & b & c' & d & CF).
  exists t, m', A', L', oo'. split; [exact TF|]. split; [exact OD|]. split; [exact WI1|]. split; [exact RO1|]. split; [exact SN'|].
  split; [rewrite CF; exact P|]. split; [apply IL; auto|]. split; [congruence|]. rewrite CF. repeat split; reflexivity.
Qed.
(** ** Whatever accounts are listed *)
Lemma orders_fail c ms k x payer w ixs er : legal e ms -> key_at ms 0 = Some k -> key_at ms 1 = Some x -> key_at ms 6 = Some payer -> signs ms 7 w -> Forall order_ix_ok ixs ->
  forall s m A L oo, winv e s -> seen e s k m A L -> usable m -> In (x, oo) L -> oo_owner oo = w -> room e s (zlen ixs) -> proc_new_orders e c s ixs ms = Err er ->
  about_accounts er \/ exists before ix after s2 m2 A2 L2 oo2 t, ixs = before ++ ix :: after /\ placing e k x payer w (key_at ms 12) s before s2 /\
    seen e s2 k m2 A2 L2 /\ In (x, oo2) L2 /\ oo_owner oo2 = w /\ token_at s2 payer = Some t /\ order_error e s2 k m2 A2 c ix x w oo2 t (key_at ms 12) er.
Proof.
  intros LG K0 K1 K6 SG F. induction F as [|ix r IX F IH]; intros s m A L oo WI SN P IN OW RO H; cbn [proc_new_orders] in H; [discriminate|].
  apply rbind_err in H. rewrite zlen_cons, Z.add_comm in RO. destruct H as [H|(s1 & H1 & H)].
  - destruct (order_refused e EO s k m A L WI SN P c ix ms er IX K0 H) as [X|(x1 & w1 & oo1 & payer1 & t & E1 & E6 & SG1 & AF & TK & ER)]; [left; exact X|right].
    assert (x1 = x) by congruence. subst x1. assert (payer1 = payer) by congruence. subst payer1. unfold signs in SG, SG1. assert (w1 = w) by congruence. subst w1.
    pose proof (proj1 (sn_oos _ _ _ _ _ _ SN x oo) IN) as LV.
    assert (oo1 = oo). { destruct AF as [[LO _]|(LO & _)]; [|destruct LV; congruence]. apply (sn_oos _ _ _ _ _ _ SN) in LO. destruct LO, LV. congruence. } subst oo1.
    exists [], ix, r, s, m, A, L, oo, t. split; [reflexivity|]. split; [apply placing_nil|]. repeat (split; [assumption|]). exact ER.
  - destruct (order_step c ms k x payer w ix s s1 m A L oo (zlen r) LG K0 K1 K6 SG IX WI SN P IN OW RO (zlen_nonneg r) H1) as (t & m1 & A1 & L1 & oo1 & TF & OD & WI1 & RO1 & SN1 & P1 & IN1 & OW1 & _).
    destruct (IH s1 m1 A1 L1 oo1 WI1 SN1 P1 IN1 OW1 RO1 H) as [X|(before & ix2 & after & s2 & m2 & A2 & L2 & oo2 & t2 & EQ & PL & R)]; [left; exact X|right].
    exists (ix :: before), ix2, after, s2, m2, A2, L2, oo2, t2. split; [rewrite EQ; reflexivity|]. split; [|exact R].
    eapply placing_cons; [exact SN|exact IN|exact OW|exact TF|exact OD|exact PL].
Qed.
Theorem replace_refused s k m A L : winv e s -> no_overflow e s -> seen e s k m A L -> usable m ->
  forall c ixs ms er, legal e ms -> Forall order_ix_ok ixs -> (length ixs <= 8)%nat -> process e c s (IReplaceMany ixs) ms = Err er -> key_at ms 0 = Some k ->
  about_accounts er \/ exists x oo payer, key_at ms 1 = Some x /\ In (x, oo) L /\ signs ms 7 (oo_owner oo) /\ key_at ms 6 = Some payer /\
    replace_error e s k m A L c ixs x (oo_owner oo) oo payer (key_at ms 12) er.
Proof.
  intros WI G SN P c ixs ms er LG F LN H K. cbn [process] in H. unfold proc_replace in H. apply rbind_err in H. destruct H as [H|(cms & HC & H)]; [unfold unwrap in H; destruct (nths ms _); discriminate|].
  unfold unwrap in HC. destruct (nths ms _) as [l|] eqn:EN in HC; [|discriminate]. injection HC as ->.
  pose proof (nths_spec _ _ _ EN) as NS. rewrite firstn_all2 in H by (rewrite map_length; lia).
  assert (K0 : key_at cms 0 = Some k) by (unfold key_at; rewrite NS; exact K).
  assert (PAY : forall w, signs ms 7 w -> exists payer, key_at ms 6 = Some payer).
  { intros w SX. unfold key_at. destruct (nth_error ms 6) as [a|] eqn:E6; [cbn; eauto|]. apply nth_error_None in E6. unfold signs in SX. assert (nth_error ms 7 <> None) as N7 by congruence. apply nth_error_Some in N7. lia. }
  apply rbind_err in H. destruct H as [H|(s1 & H1 & H)].
  - destruct (cancel_cids_refused e s k m A L WI SN P c (map oi_cid ixs) cms er K0 H) as [X|(x & oo & K3 & IN & SG & ER)]; [left; exact X|right].
    assert (KX : key_at ms 1 = Some x) by (unfold key_at in *; rewrite NS in K3; exact K3). assert (SX : signs ms 7 (oo_owner oo)) by (unfold signs in *; rewrite NS in SG; exact SG).
    destruct (PAY _ SX) as (payer & KP). exists x, oo, payer. repeat (split; [assumption|]). left. exact ER.
  - destruct (cancel_cids_effect e EO s k m A L WI SN P c (map oi_cid ixs) cms s1 H1 K0) as (x & oo & K3 & IN & SG & CE).
    assert (KX : key_at ms 1 = Some x) by (unfold key_at in *; rewrite NS in K3; exact K3). assert (SX : signs ms 7 (oo_owner oo)) by (unfold signs in *; rewrite NS in SG; exact SG).
    destruct (PAY _ SX) as (payer & KP).
    pose proof CE as (A1 & oo1 & WD & SN1 & ON). destruct (cids_one e EO s _ _ s1 WI H1) as [WI1 RO1]. pose proof (wd_slots _ _ _ _ _ _ _ _ WD) as (S1 & S2 & S3 & _).
    assert (IN1 : In (x, oo1) (put_acct L x oo1)) by (unfold put_acct; apply in_map_iff; exists (x, oo); cbn [fst]; rewrite Z.eqb_refl; auto).
    destruct (orders_fail c ms k x payer (oo_owner oo) ixs er LG K KX KP SX F s1 m A1 _ oo1 WI1 SN1 P IN1 S3 (RO1 _ (guard_room e s (zlen ixs) G ltac:(unfold zlen; lia))) H) as [X|(before & ix & after & s2 & m2 & A2 & L2 & oo2 & t & EQ & PL & R)]; [left; exact X|right].
    exists x, oo, payer. repeat (split; [assumption|]). right. exists before, ix, after, s1, s2, m2, A2, L2, oo2, t. split; [exact EQ|]. split; [exact CE|]. split; [exact PL|]. exact R.
Qed.
(** ** With the right accounts *)
Lemma tr_fee_nonneg pl k x : 0 <= tr_fee pl k x.
Proof. unfold tr_fee. destruct (self k x); [lia|apply taker_fee_nonneg]. Qed.
(** What an order brings is backed by the deposits, and what it takes comes out of the payer. *)
Lemma order_amounts s s1 k m A L ix t x payer oo m1 A1 L1 oo1 tp : winv e s -> seen e s k m A L -> usable m -> In (x, oo) L -> orders e s s1 k m A L ix t x payer oo ->
  seen e s1 k m1 A1 L1 -> In (x, oo1) L1 -> token_at s payer = Some tp ->
  exists tp1, token_at s1 payer = Some tp1 /\ t_mint tp1 = t_mint tp /\ t_state tp1 = t_state tp /\
  match oi_side ix with
  | Bid => m_coin_deposits m1 <= m_coin_deposits m /\ oo_coin_total oo1 <= oo_coin_total oo + m_coin_deposits m /\
      m_pc_deposits m1 + t_amount tp1 <= m_pc_deposits m + t_amount tp /\ oo_pc_total oo1 + t_amount tp1 <= oo_pc_total oo + t_amount tp
  | Ask => m_pc_deposits m1 <= m_pc_deposits m /\ oo_pc_total oo1 <= oo_pc_total oo + m_pc_deposits m /\
      m_coin_deposits m1 + t_amount tp1 <= m_coin_deposits m + t_amount tp /\ oo_coin_total oo1 + t_amount tp1 <= oo_coin_total oo + t_amount tp
  end.
Proof.
  intros WI SN P IN OD SN1 IN1 TK. destruct (seen_state e s k m A L WI SN P) as (seq & o & MS). pose proof (ms_inv _ _ _ _ _ _ _ MS) as C. pose proof (ms_mkt _ _ _ _ _ _ _ MS) as EM.
  destruct OD as (m' & A' & L' & oo' & tr & q' & n' & E & slot & id & dep & OD). cbv zeta in OD. destruct OD as (_ & _ & SN' & IL & _ & RP & _ & _ & _ & (_ & NE & _) & MM).
  assert (m' = m1) by (pose proof (sn_mkt _ _ _ _ _ _ SN'); pose proof (sn_mkt _ _ _ _ _ _ SN1); congruence). subst m'.
  assert (OE : oo' = oo1).
  { assert (I' : In (x, oo') L') by (apply IL; auto). apply (sn_oos _ _ _ _ _ _ SN') in I'. apply (sn_oos _ _ _ _ _ _ SN1) in IN1. destruct I', IN1. congruence. } subst oo'.
  set (tk := mkTaker (oi_side ix) id x slot t (oi_cid ix) (oi_st ix) false) in *.
  assert (RR : rounds tk (oi_qty ix) (book_of A (other (oi_side ix))) tr q' (book_of A' (other (oi_side ix)))).
  { destruct (oi_side ix) eqn:SD; [destruct (sn_bids _ _ _ _ _ _ SN) as (sl & HS & _)|destruct (sn_asks _ _ _ _ _ _ SN) as (sl & HS & _)];
    exact (rp_rounds _ _ _ _ _ _ _ _ _ _ _ _ _ _ _ _ _ (RP sl HS)). }
  pose proof (cinv_sorted _ _ _ _ C) as SO. pose proof (cinv_bids_value _ _ _ _ C) as BV. pose proof (cinv_asks_value _ _ _ _ C) as AV. rewrite EM in BV, AV.
  pose proof (ci_cl _ _ _ _ C) as CLP. pose proof (ci_pl _ _ _ _ C) as PLP. pose proof (ci_fit _ _ _ _ C) as FT. rewrite EM in CLP, PLP, FT.
  assert (FN1 : 0 <= zsum (fun x : Z * open_orders => oo_pc_free (snd x)) L).
  { apply zsum_nonneg. intros [k' oo'] H'. pose proof (ao_pc _ _ _ _ _ _ (ci_acct _ _ _ _ C _ _ H')). cbn [snd]. lia. }
  assert (FN2 : 0 <= zsum (fun x : Z * open_orders => oo_coin_free (snd x)) L).
  { apply zsum_nonneg. intros [k' oo'] H'. pose proof (ao_coin _ _ _ _ _ _ (ci_acct _ _ _ _ C _ _ H')). cbn [snd]. lia. }
  assert (FE : 0 <= zsum (tr_fee (m_pc_lot m) tk) tr) by (apply zsum_nonneg; intros; apply tr_fee_nonneg).
  assert (VL : 0 <= zsum (tr_value (m_pc_lot m) tk) tr).
  { assert (NP : forall b, In b (book_of A (other (oi_side ix))) -> 0 <= l_price b).
    { intros b Hb. destruct (oi_side ix); cbn [other book_of] in Hb; [destruct (f_asks _ _ _ FT b Hb) as (X1 & X2 & X3)|destruct (f_bids _ _ _ FT b Hb) as (X1 & X2 & X3)]; lia. }
    eapply rounds_fees; [exact RR|lia|]. intros b n Hb. destruct (rounds_In _ _ _ _ _ _ RR _ Hb) as (_ & b0 & Hb0 & EK). cbn [fst] in EK. unfold l_price. rewrite <- EK. apply NP. exact Hb0. }
  assert (LN : 0 <= zsum (tr_coin tk) tr * m_coin_lot m) by (apply Z.mul_nonneg_nonneg; [apply (rounds_used _ _ _ _ _ _ RR)|lia]).
  destruct (oi_side ix) eqn:SD; cbn [other book_of pays_into] in *; destruct MM as (_ & _ & (_ & CT & _ & PT & _) & MV & EM1).
  - specialize (MV payer). rewrite TK in MV. destruct MV as (tp1 & T1 & T2 & _ & T3 & T4). exists tp1. split; [exact T1|]. split; [exact T2|]. split; [exact T3|].
    cbn [zsum got] in T4. rewrite Z.eqb_refl in T4. assert (T5 : t_amount tp1 = t_amount tp - dep) by (destruct (Z.eqb_spec payer (m_pc_vault m)); destruct NE; try contradiction; lia). clear T4.
    pose proof (rounds_coin _ (m_coin_lot m) _ _ _ _ _ CLP (fun b Hb => asks_nonneg _ _ _ FT CLP b Hb) (SO Ask) RR) as RC.
    rewrite EM1. cbn [m_coin_deposits m_pc_deposits set_counters]. lia.
  - specialize (MV payer). rewrite TK in MV. destruct MV as (tp1 & T1 & T2 & _ & T3 & T4). exists tp1. split; [exact T1|]. split; [exact T2|]. split; [exact T3|].
    cbn [zsum got] in T4. rewrite Z.eqb_refl in T4. assert (T5 : t_amount tp1 = t_amount tp - dep) by (destruct (Z.eqb_spec payer (m_coin_vault m)); destruct NE; try contradiction; lia). clear T4.
    assert (NP : forall b, In b (a_bids A) -> 0 <= l_price b) by (intros b Hb; destruct (f_bids _ _ _ FT b Hb) as (X1 & X2 & X3); lia).
    pose proof (rounds_value _ (m_pc_lot m) _ _ _ _ _ PLP (fun b Hb => bids_nonneg _ _ _ FT PLP b Hb) NP (SO Bid) RR) as RC.
    rewrite EM1. cbn [m_coin_deposits m_pc_deposits set_counters]. lia.
Qed.
Lemma orders_moves s s1 k m A L ix t x payer oo : orders e s s1 k m A L ix t x payer oo -> exists ps, moves s s1 ps.
Proof. intros (m' & A' & L' & oo' & tr & q' & n' & E & slot & id & dep & OD). cbv zeta in OD. destruct OD as (_ & _ & _ & _ & _ & _ & _ & _ & _ & _ & MM). destruct (oi_side ix); destruct MM as (_ & _ & _ & MV & _); eauto. Qed.
Lemma moves_thawed s s1 ps v : moves s s1 ps -> thawed s v -> thawed s1 v.
Proof. intros MV (t & T & S). specialize (MV v). rewrite T in MV. destruct MV as (t1 & T1 & _ & _ & S1 & _). exists t1. split; [exact T1|congruence]. Qed.
Lemma moves_discount s s1 ps w disc : moves s s1 ps -> (forall v, a_len (sget s1 v) = a_len (sget s v)) -> discount_ok s w disc -> discount_ok s1 w disc.
Proof.
  intros MV LN [->|(d & t & -> & T & LE & S & O)]; [left; reflexivity|right]. specialize (MV d). rewrite T in MV. destruct MV as (t1 & T1 & _ & O1 & S1 & _).
  exists d, t1. split; [reflexivity|]. split; [exact T1|]. rewrite LN. split; [exact LE|]. split; congruence.
Qed.
Definition replace_accounts (k : Z) (m : market) (x payer w rent : Z) (disc : list Z) : list meta :=
  mkMeta k false :: mkMeta x false :: mkMeta (m_req_q m) false :: mkMeta (m_event_q m) false :: mkMeta (m_bids m) false :: mkMeta (m_asks m) false ::
  mkMeta payer false :: mkMeta w true :: map (fun y => mkMeta y false) ([m_coin_vault m; m_pc_vault m; spl_id; rent] ++ disc).
Lemma accounts_legal k m x payer w rent disc : ~ is_pda e w -> legal e (replace_accounts k m x payer w rent disc).
Proof.
  intros NP a I S. unfold replace_accounts in I. cbn [In] in I. repeat (destruct I as [<-|I]; [try discriminate S; try exact NP|]).
  apply in_map_iff in I. destruct I as (y & <- & _). discriminate S.
Qed.
Lemma accounts_disc k m x payer w rent disc : key_at (replace_accounts k m x payer w rent disc) 12 = nth_error disc 0.
Proof. unfold key_at, replace_accounts. destruct disc; reflexivity. Qed.
Lemma orders_judged c k x payer w rent disc sd : ~ is_pda e w -> forall ixs, Forall (fun ix => order_ix_ok ix /\ oi_side ix = sd) ixs ->
  forall s m A L oo tp, winv e s -> amounts_ok s -> seen e s k m A L -> usable m -> ~ disabled m -> In (x, oo) L -> oo_owner oo = w -> room e s (zlen ixs) ->
  token_at s payer = Some tp -> a_len (sget s payer) = 165 -> t_state tp = 1 -> t_mint tp = pays_in m sd -> payer <> pays_into m sd ->
  discount_ok s w disc -> thawed s (m_coin_vault m) -> thawed s (m_pc_vault m) -> amounts_fit m sd oo (t_amount tp) (zlen ixs) ->
  let r := proc_new_orders e c s ixs (replace_accounts k m x payer w rent disc) in
  (exists s', r = Ok s') \/ exists er, r = Err er /\ exists before ix after s2 m2 A2 L2 oo2 t, ixs = before ++ ix :: after /\ placing e k x payer w (nth_error disc 0) s before s2 /\
    seen e s2 k m2 A2 L2 /\ In (x, oo2) L2 /\ oo_owner oo2 = w /\ token_at s2 payer = Some t /\ order_error e s2 k m2 A2 c ix x w oo2 t (nth_error disc 0) er.
Proof.
  intros NP ixs F. induction F as [|ix r [IX SD] F IH]; intros s m A L oo tp WI AO SN P ND IN OW RO T1 T2 T3 T4 T5 DO TH1 TH2 AM; cbn [proc_new_orders]; [left; eauto|].
  destruct (seen_state e s k m A L WI SN P) as (seq & o & MS). pose proof (ms_inv _ _ _ _ _ _ _ MS) as C. pose proof (ms_mkt _ _ _ _ _ _ _ MS) as EM.
  pose proof (ci_mkt _ _ _ _ C) as (MU1 & MU2 & MU3). pose proof (ci_coin_dep _ _ _ _ C) as MU4. rewrite EM in MU1, MU2, MU3, MU4. unfold u64 in MU1, MU2, MU3, MU4.
  assert (TB : 0 <= t_amount tp) by (pose proof (AO _ _ T1); unfold u64 in *; lia).
  rewrite zlen_cons in AM. pose proof (zlen_nonneg r) as ZR.
  pose proof (order_judged e EO s k m A L WI SN P c ix x w oo payer tp rent disc (or_introl (conj IN OW)) ND IX T1 T2 T3) as OJ. rewrite SD in OJ.
  specialize (OJ T4 T5 DO TH1 TH2). cbv zeta in OJ.
  destruct OJ as [(s1 & H1)|(er & H1 & ER)].
  - unfold amounts_fit in AM. destruct sd; [nia|lia].
  - unfold amounts_fit in AM. destruct sd; [lia|nia].
  - fold (replace_accounts k m x payer w rent disc) in H1. cbn [process] in H1.
    rewrite zlen_cons, Z.add_comm in RO.
    destruct (order_step c (replace_accounts k m x payer w rent disc) k x payer w ix s s1 m A L oo (zlen r) (accounts_legal _ _ _ _ _ _ _ NP) eq_refl eq_refl eq_refl eq_refl IX WI SN P IN OW RO ZR H1)
      as (t & m1 & A1 & L1 & oo1 & TF & OD & WI1 & RO1 & SN1 & P1 & IN1 & OW1 & F1 & F2 & F3 & F4 & F5 & F6 & F7 & F8 & F9 & F10).
    rewrite accounts_disc in TF.
    destruct (order_amounts s s1 k m A L ix t x payer oo m1 A1 L1 oo1 tp WI SN P IN OD SN1 IN1 T1) as (tp1 & U1 & U2 & U3 & U4).
    destruct (orders_moves _ _ _ _ _ _ _ _ _ _ _ OD) as (ps & MV).
    assert (LN : forall v, a_len (sget s1 v) = a_len (sget s v)) by (intros v; exact (process_len e c s (INewOrderV3 ix) _ s1 H1 v)).
    assert (EA : replace_accounts k m1 x payer w rent disc = replace_accounts k m x payer w rent disc) by (unfold replace_accounts; congruence).
    rewrite H1. cbn [rbind]. rewrite <- EA.
    assert (ND1 : ~ disabled m1) by (unfold disabled in *; rewrite F1; exact ND).
    assert (AM1 : amounts_fit m1 sd oo1 (t_amount tp1) (zlen r)).
    { rewrite SD in U4. unfold amounts_fit in *. destruct sd; destruct U4 as (V1 & V2 & V3 & V4); split; nia. }
    destruct (IH s1 m1 A1 L1 oo1 tp1 WI1 (amt_order e EO c s ix _ s1 H1 AO) SN1 P1 ND1 IN1 OW1 RO1 U1) as [(s' & HS)|(er & HS & before & ix2 & after & s2 & m2 & A2 & L2 & oo2 & t2 & EQ & PL & R)].
    all: try exact AM1. all: try (rewrite LN; assumption). all: try congruence.
    + unfold pays_in in *. destruct sd; congruence.
    + unfold pays_into in *. destruct sd; congruence.
    + eapply moves_discount; eassumption.
    + rewrite F2. eapply moves_thawed; eassumption.
    + rewrite F3. eapply moves_thawed; eassumption.
    + left. eauto.
    + right. exists er. split; [exact HS|]. exists (ix :: before), ix2, after, s2, m2, A2, L2, oo2, t2. split; [rewrite EQ; reflexivity|]. split; [|exact R].
      eapply placing_cons; [exact SN|exact IN|exact OW|exact TF|exact OD|exact PL].
  - fold (replace_accounts k m x payer w rent disc) in H1. cbn [process] in H1. right. exists er. rewrite H1. split; [reflexivity|].
    exists [], ix, r, s, m, A, L, oo, tp. split; [reflexivity|]. split; [apply placing_nil|]. repeat (split; [assumption|]). exact ER.
Qed.
Theorem replace_judged s k m A L : winv e s -> amounts_ok s -> no_overflow e s -> seen e s k m A L -> usable m ->
  forall c sd ixs x oo payer tp rent disc, let w := oo_owner oo in Forall (fun ix => order_ix_ok ix /\ oi_side ix = sd) ixs -> (length ixs <= 8)%nat -> In (x, oo) L -> ~ is_pda e w -> ~ disabled m ->
  token_at s payer = Some tp -> a_len (sget s payer) = 165 -> t_state tp = 1 -> t_mint tp = pays_in m sd -> payer <> pays_into m sd ->
  discount_ok s w disc -> thawed s (m_coin_vault m) -> thawed s (m_pc_vault m) -> amounts_fit m sd oo (t_amount tp) (zlen ixs) ->
  let r := process e c s (IReplaceMany ixs) (replace_accounts k m x payer w rent disc) in
  (exists s', r = Ok s') \/ exists er, r = Err er /\ replace_error e s k m A L c ixs x w oo payer (nth_error disc 0) er.
Proof.
  intros WI AO G SN P c sd ixs x oo payer tp rent disc w F LN IN NP ND T1 T2 T3 T4 T5 DO TH1 TH2 AM. cbv zeta. cbn [process]. unfold proc_replace.
  change (nths (replace_accounts k m x payer w rent disc) [0; 4; 5; 1; 7; 3]%nat) with (Some (cancel_accounts k m x w [])). cbn [unwrap rbind].
  rewrite firstn_all2 by (rewrite map_length; lia).
  destruct (cancel_cids_decided e s k m A L WI SN P c (map oi_cid ixs) x oo [] IN) as [(s1 & H1)|(er & H1 & ER)]; fold w in H1; cbn [process] in H1; rewrite H1; cbn [rbind];
    [|right; exists er; split; [reflexivity|left; exact ER]].
  destruct (cancel_cids_effect e EO s k m A L WI SN P c (map oi_cid ixs) (cancel_accounts k m x w []) s1 H1 eq_refl) as (x0 & oo0 & K3 & IN0 & SG & CE).
  injection K3 as <-. assert (oo0 = oo). { apply (sn_oos _ _ _ _ _ _ SN) in IN0. pose proof (proj1 (sn_oos _ _ _ _ _ _ SN x oo) IN) as LV. destruct IN0, LV. congruence. } subst oo0.
  pose proof CE as (A1 & oo1 & WD & SN1 & ON). destruct (cids_one e EO s _ _ s1 WI H1) as [WI1 RO1]. pose proof (wd_slots _ _ _ _ _ _ _ _ WD) as (S1 & S2 & S3 & _).
  pose proof (wd_bal _ _ _ _ _ _ _ _ WD) as (_ & CT & _ & PT & _).
  assert (IN1 : In (x, oo1) (put_acct L x oo1)) by (unfold put_acct; apply in_map_iff; exists (x, oo); cbn [fst]; rewrite Z.eqb_refl; auto).
  pose proof (wi_str _ _ WI) as W.
  assert (TK : forall v t, token_at s v = Some t -> sget s1 v = sget s v).
  { intros v t TV. apply ON. cbn [In]. destruct (seen_state e s k m A L WI SN P) as (seq & o & MS). pose proof (ms_bids _ _ _ _ _ _ _ MS) as HB. pose proof (ms_asks _ _ _ _ _ _ _ MS) as HA. pose proof (ms_evq _ _ _ _ _ _ _ MS) as HE.
    pose proof (proj1 (proj1 (sn_oos _ _ _ _ _ _ SN x oo) IN)) as HX. apply dexd_owned in HB, HA, HE, HX. unfold token_at in TV. destruct (a_prog (sget s v) =? spl_id); [|discriminate TV].
    intros [<-|[<-|[<-|[<-|[]]]]]; [rewrite (proj2 HB) in TV|rewrite (proj2 HA) in TV|rewrite (proj2 HE) in TV|rewrite (proj2 HX) in TV]; discriminate TV. }
  assert (TE : forall v t, token_at s v = Some t -> token_at s1 v = Some t) by (intros v t TV; unfold token_at in *; rewrite (TK v t TV); exact TV).
  assert (TT : forall v, thawed s v -> thawed s1 v) by (intros v (t & TV & ST); exists t; split; [apply TE; exact TV|exact ST]).
  assert (DO1 : discount_ok s1 w disc).
  { destruct DO as [->|(d & t & -> & TD & LE & SD & OD)]; [left; reflexivity|right]. exists d, t. split; [reflexivity|]. split; [apply TE; exact TD|]. rewrite (TK _ _ TD). auto. }
  destruct (orders_judged c k x payer w rent disc sd NP ixs F s1 m A1 (put_acct L x oo1) oo1 tp WI1 (amt_cancel e s _ _ s1 H1 AO) SN1 P ND IN1 S3 (RO1 _ (guard_room e s (zlen ixs) G ltac:(unfold zlen; lia))) (TE _ _ T1))
    as [(s' & HS)|(er & HS & before & ix & after & s2 & m2 & A2 & L2 & oo2 & t & EQ & PL & R)]; try assumption; try (apply TT; assumption).
  - rewrite (TK _ _ T1). exact T2.
  - unfold amounts_fit in *. rewrite CT, PT, !Z.add_0_r. exact AM.
  - left. eauto.
  - right. exists er. split; [exact HS|]. right. exists before, ix, after, s1, s2, m2, A2, L2, oo2, t. split; [exact EQ|]. split; [exact CE|]. split; [exact PL|]. exact R.
Qed.
Lemma replaces_many c s i ixs ms : replaces i ixs -> process e c s i ms = process e c s (IReplaceMany ixs) ms.
Proof. intros [->|(ix & -> & ->)]; reflexivity. Qed.
Theorem any_replace_refused s k m A L : winv e s -> no_overflow e s -> seen e s k m A L -> usable m ->
  forall c i ixs ms er, replaces i ixs -> legal e ms -> Forall order_ix_ok ixs -> (length ixs <= 8)%nat -> process e c s i ms = Err er -> key_at ms 0 = Some k ->
  about_accounts er \/ exists x oo payer, key_at ms 1 = Some x /\ In (x, oo) L /\ signs ms 7 (oo_owner oo) /\ key_at ms 6 = Some payer /\
    replace_error e s k m A L c ixs x (oo_owner oo) oo payer (key_at ms 12) er.
Proof. intros WI G SN P c i ixs ms er R LG F LN H K. rewrite (replaces_many _ _ _ _ _ R) in H. eapply replace_refused; eassumption. Qed.
Theorem any_replace_judged s k m A L : winv e s -> amounts_ok s -> no_overflow e s -> seen e s k m A L -> usable m ->
  forall c i sd ixs x oo payer tp rent disc, replaces i ixs -> Forall (fun ix => order_ix_ok ix /\ oi_side ix = sd) ixs -> (length ixs <= 8)%nat ->
  let w := oo_owner oo in In (x, oo) L -> ~ is_pda e w -> ~ disabled m ->
  token_at s payer = Some tp -> a_len (sget s payer) = 165 -> t_state tp = 1 -> t_mint tp = pays_in m sd -> payer <> pays_into m sd ->
  discount_ok s w disc -> thawed s (m_coin_vault m) -> thawed s (m_pc_vault m) -> amounts_fit m sd oo (t_amount tp) (zlen ixs) ->
  let r := process e c s i (replace_accounts k m x payer w rent disc) in
  (exists s', r = Ok s') \/ exists er, r = Err er /\ replace_error e s k m A L c ixs x w oo payer (nth_error disc 0) er.
Proof.
  intros WI AO G SN P c i sd ixs x oo payer tp rent disc R F LN w IN NP ND T1 T2 T3 T4 T5 DO TH1 TH2 AM. cbv zeta. rewrite (replaces_many _ _ _ _ _ R).
  exact (replace_judged s k m A L WI AO G SN P c sd ixs x oo payer tp rent disc F LN IN NP ND T1 T2 T3 T4 T5 DO TH1 TH2 AM).
Qed.
End Replace.
