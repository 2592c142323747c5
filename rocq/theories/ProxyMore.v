(** Markets on which the proxy opens every account; and that the proxy does what it is asked. *)
From Verif Require Import Base BaseProofs Fees ListSum Queue Codec Critbit CritbitSlab Market Slots Matching MatchSteps Ledger Core CoreNew Instr InstrProofs Store Process StoreProofs World WorldInv WorldLoad WorldRun WorldStep WorldSpec WorldFacts WorldMain WorldPay WorldAuth WorldRights Proxy ProxySpec ProxyAmounts ProxyProofs ProxyMain.

Section More.
Variable e : env.
Hypothesis EO : env_ok e.
Variable px : pxenv.
Hypothesis PO : px_ok e px.
Notation D := (dexd e).

Lemma lived_anytime s : lived e px s -> anytime e s.
Proof.
  induction 1 as [s G|s c b ms L IH LG SE|s c mws ms data s' L IH GM LG SE HB H|s s' L IH R].
  - exists s. split; [exact G|constructor].
  - destruct IH as (s0 & G & L0). exists s0. split; [exact G|apply later_tx; exact L0].
  - exact (run_anytime e EO px PO c mws s ms data s' GM LG HB H IH).
  - destruct IH as (s0 & G & L0). exists s0. split; [exact G|eapply later_env; eassumption].
Qed.
Lemma oo_or_not s x : (exists oo, D s x = Some (DOO oo)) \/ (forall oo, D s x <> Some (DOO oo)).
Proof. destruct (D s x) as [[]|]; try (right; intros; discriminate); eauto. Qed.
Lemma config_gated k m m' s c i ms s' : anytime e s -> process e c s i ms = Ok s' -> D s k = Some (DMarket m) -> D s' k = Some (DMarket m') -> gated px k m' -> gated px k m.
Proof.
  intros AT H HM HM' (PM & b & E). destruct (market_kept e EO _ _ _ _ _ _ _ AT H HM) as (m1 & HM1 & (cd & pd & pf & rb & fl & EQ) & F). rewrite HM' in HM1. injection HM1 as <-.
  assert (EA : m_oo_auth m' = m_oo_auth m) by (rewrite EQ; reflexivity). split; [|exists b; congruence]. unfold permissioned in *. destruct F as [F|(_ & _ & _ & F)]; [congruence|].
  assert (FL : m_flags m' = Z.lor (m_flags m) 128) by (rewrite F; reflexivity). rewrite FL, Z.lor_spec in PM. replace (Z.testbit 128 9) with false in PM by reflexivity. destruct (Z.testbit (m_flags m) 9); [reflexivity|discriminate].
Qed.
(** What one instruction does to the accounts of such a market. *)
Lemma gated_step k s c i ms s' m' x oo' : anytime e s -> process e c s i ms = Ok s' -> D s' k = Some (DMarket m') -> gated px k m' -> in_use e s' k x oo' ->
  (exists m oo, D s k = Some (DMarket m) /\ gated px k m /\ in_use e s k x oo /\ oo_owner oo' = oo_owner oo) \/
  ((forall oo, D s x <> Some (DOO oo)) /\ i = IInitOO /\ signed_by ms (m_oo_auth m')).
Proof.
  intros AT H HM' GA (HX' & FX' & KX'). pose proof (anytime_struct e EO s AT) as WS. destruct (oo_or_not s x) as [(oo & HX)|NX].
  - left. destruct (account_kept e EO _ _ _ _ _ _ _ AT H HX) as (o1 & H1 & O1 & M1 & F1). assert (o1 = oo') by congruence. subst o1.
    assert (FX : oo_flags oo = OO_FLAGS). { destruct F1 as [F1|(_ & _ & F1)]; [congruence|]. unfold close_core in F1. do 3 peel F1. assert (EQ : oo' = set_oo_flags oo AF_Closed) by congruence. rewrite EQ in FX'. discriminate. }
    destruct (ws_oo _ WS _ _ HX) as [(_ & m & HM)|FC]; [|rewrite FX in FC; discriminate]. rewrite <- M1, KX' in HM. exists m, oo. split; [exact HM|]. split; [eapply config_gated; eassumption|]. split; [|congruence]. split; [exact HX|]. split; [exact FX|congruence].
  - right. split; [exact NX|]. destruct (opening e EO _ _ _ _ _ _ _ AT H HX' NX) as (_ & _ & _ & _ & m & HM & _ & R). rewrite KX' in HM. pose proof (config_gated k m m' s c i ms s' AT H HM HM' GA) as (PM & _).
    destruct (R PM) as (EI & SG). split; [exact EI|]. destruct (market_kept e EO _ _ _ _ _ _ _ AT H HM) as (m1 & HM1 & (cd & pd & pf & rb & fl & EQ) & _). rewrite HM' in HM1. injection HM1 as <-.
    replace (m_oo_auth m') with (m_oo_auth m) by (rewrite EQ; reflexivity). exact SG.
Qed.
Theorem gated_accounts s : lived e px s -> forall k m x oo, D s k = Some (DMarket m) -> gated px k m -> in_use e s k x oo -> oo_owner oo = x /\ exists u, address_of px k u x.
Proof.
  induction 1 as [s G|s c b ms L IH LG SE|s c mws ms data s' L IH GM LG SE HB H|s s' L IH R]; intros k m x oo HM GA IU.
  - exfalso. pose proof (ge_blank _ _ G k _ HM). discriminate.
  - unfold transact in HM, IU. destruct (process_bytes e c s b ms) as [s'|?|] eqn:E; [|eapply IH; eassumption|eapply IH; eassumption]. unfold process_bytes in E. peel E.
    destruct (gated_step k s c _ ms s' m x oo (lived_anytime s L) E HM GA IU) as [(m0 & oo0 & HM0 & GA0 & IU0 & ->)|(_ & _ & SG)]; [eapply IH; eassumption|].
    exfalso. destruct GA as (_ & b0 & E1). exact (proj2 (SE _ SG) k b0 E1).
  - pose proof (lived_anytime s L) as AT. destruct (run_went e px _ _ _ _ _ _ GM H) as [(-> & _)|(i & acc & b & bi & xx & s1 & s2 & W)]; [eapply IH; eassumption|].
    destruct (wt_anytime e EO px PO W HB LG AT) as (AT1 & _). pose proof (wt_process e px W HB) as PR. pose proof (wt_ask _ _ _ _ _ _ _ _ _ _ _ _ _ _ _ W) as AK.
    pose proof HM as HM2. rewrite (wt_D2 e EO px W) in HM2. assert (IU2 : in_use e s2 k x oo) by (unfold in_use in *; rewrite (wt_D2 e EO px W) in IU; exact IU).
    destruct (gated_step k s1 c i _ s2 m x oo AT1 PR HM2 GA IU2) as [(m0 & oo0 & HM0 & GA0 & (HX0 & F0 & K0) & ->)|(NX & -> & SG)].
    + eapply IH; [apply (wt_was e EO px W); [exact HM0|discriminate]|exact GA0|]. split; [apply (wt_was e EO px W); [exact HX0|discriminate]|auto].
    + destruct (run_open e EO px PO c mws s ms data s' GM LG HB AT H AK) as (k1 & u1 & m1 & oo1 & b2 & bi2 & a & _ & _ & _ & P1 & DN & D1 & (_ & MK1 & _) & _ & _ & _ & _ & VO & _).
      destruct (Z.eq_dec x (oo_owner oo1)) as [->|N].
      * destruct IU as (HX & _ & KX). assert (oo = oo1) by congruence. subst oo1. split; [reflexivity|]. exists u1, b2. replace k with k1 by congruence. exact P1.
      * exfalso. apply (NX oo). apply (wt_kept e EO px W). rewrite <- (VO x N). exact (proj1 IU).
  - assert (B : forall y d, D s' y = Some d -> d <> DZero -> D s y = Some d).
    { intros y d HY NZ. destruct (re_dex _ _ _ R y) as [Q|[(Q & _)|(Q & _)]]; congruence. }
    destruct IU as (HX & FX & KX). eapply IH; [apply B; [exact HM|discriminate]|exact GA|]. split; [apply B; [exact HX|discriminate]|auto].
Qed.
Theorem gated_one s k m x oo u u' : lived e px s -> D s k = Some (DMarket m) -> gated px k m -> in_use e s k x oo -> address_of px k u x -> address_of px k u' x -> u = u'.
Proof. intros _ _ _ _ A A'. exact (proj2 (po_open _ _ PO _ _ _ _ _ A A')). Qed.
(** Instructions sent to the dex itself. *)
Theorem gated_direct s c i ms s' k m x oo : lived e px s -> D s k = Some (DMarket m) -> gated px k m -> in_use e s k x oo -> sealed px ms -> process e c s i ms = Ok s' ->
  D s' x <> D s x -> ((exists n, i = IPrune n) /\ signed_by ms (m_prune_auth m)) \/ consuming i.
Proof.
  intros L HM GA IU SE H NE. destruct (gated_accounts s L k m x oo HM GA IU) as (OW & u & A). destruct IU as (HX & FX & KX).
  destruct (owner_only e EO _ _ _ _ _ _ _ (lived_anytime s L) H HX NE) as (_ & [S|[(n & m1 & -> & HM1 & _ & S)|CI]]); [|left; split; [eauto|congruence]|auto].
  exfalso. rewrite OW in S. exact (proj1 (SE x S) k u A).
Qed.
Theorem gated_proxy s c mws ms data s' k m x oo u : lived e px s -> D s k = Some (DMarket m) -> gated px k m -> in_use e s k x oo -> guarded mws -> legal e ms -> sealed px ms -> is_bytes data ->
  run e px c mws s ms data = Ok s' -> D s' x <> D s x -> address_of px k u x ->
  (signed_by ms u /\ px_open px k u (px_bump px k u) = Some x) \/ ((exists n, asks data (IPrune n)) /\ signed_by ms (m_prune_auth m)) \/ exists i, asks data i /\ consuming i.
Proof.
  intros L HM GA IU GM LG SE HB H NE A. destruct (gated_accounts s L k m x oo HM GA IU) as (OW & _). destruct IU as (HX & FX & KX). pose proof (lived_anytime s L) as AT.
  destruct (run_owner e EO px PO c mws s ms data s' x oo GM LG SE HB AT H HX NE) as (_ & [AG|[(n & m1 & AK & HM1 & _ & S)|CI]]); [|right; left; split; [eauto|congruence]|auto].
  destruct (run_went e px _ _ _ _ _ _ GM H) as [(-> & _)|(i & acc & b & bi & xx & s1 & s2 & W)]; [congruence|].
  pose proof (wt_ask _ _ _ _ _ _ _ _ _ _ _ _ _ _ _ W) as AK. destruct (wt_anytime e EO px PO W HB LG AT) as (AT1 & _). pose proof (wt_process e px W HB) as PR.
  pose proof (wt_kept e EO px W x _ HX) as HX1. assert (NE1 : D s2 x <> D s1 x) by (rewrite <- (wt_D2 e EO px W x); congruence).
  destruct (owner_only e EO _ _ _ _ _ _ _ AT1 PR HX1 NE1) as (_ & [S|[(n & m1 & -> & HM1 & _ & S)|CI]]); [| |right; right; eauto].
  - left. split; [exact (proj1 AG k u ltac:(rewrite OW; exact A))|]. rewrite OW in S. assert (NI : i = IInitOO -> False).
    { intros ->. destruct (run_open e EO px PO c mws s ms data s' GM LG HB AT H AK) as (k1 & u1 & m1 & oo1 & b2 & bi2 & a & _ & _ & _ & _ & DN & _ & _ & _ & _ & _ & _ & VO & _). apply NE. apply VO. intros ->. congruence. }
    destruct (wt_signed e px W HB _ S) as [S1|[(k1 & u1 & b1 & E & S1 & _ & [EB|EI])|(EI & _)]]; [exfalso; exact (proj1 (SE x S1) k u A)| |exfalso; auto|exfalso; auto].
    subst b1. destruct (po_open _ _ PO k1 u1 k u x (ex_intro _ _ E) A) as [-> ->]. exact E.
  - right. left. split; [eauto|]. pose proof (run_owner e EO px PO c mws s ms data s' x oo GM LG SE HB AT H HX NE) as (_ & R).
    destruct R as [_|[(n1 & m2 & AK2 & HM2 & _ & S2)|(i2 & AK2 & (n2 & C2))]].
    + destruct (wt_signed e px W HB _ S) as [S1|[(k1 & u1 & b1 & E & S1 & _ & Q)|(EI & _)]]; [|exfalso|discriminate].
      * replace (m_prune_auth m) with (m_prune_auth m1); [exact S1|]. f_equal. apply (wt_was e EO px W) in HM1; [|discriminate]. congruence.
      * pose proof (wt_acc _ _ _ _ _ _ _ _ _ _ _ _ _ _ _ W) as (d & EM & _). pose proof (wt_hand _ _ _ _ _ _ _ _ _ _ _ _ _ _ _ W) as HH. cbn [handle] in HH. apply merge_signed in S.
        unfold pda_prune in HH. cbn [x_accts x_store x_seeds x_pre x_post] in HH. peel HH. peel HH. apply at_nth in E0, E1. match goal with H0 : Ok ?z = Ok xx |- _ => assert (EX : xx = z) by congruence end.
        rewrite EX in S. cbn [x_accts] in S. destruct S as (a & IA & EA & SA). apply set_nth_in in IA. assert (IM : In a ms) by (destruct IA as [->|IA]; [eapply in_acc; eassumption|rewrite EM; right; exact IA]).
        apply (proj1 (SE (m_prune_auth m1) (ex_intro _ a (conj IM (conj EA SA)))) k1 u1). exists b1. exact E.
    + congruence.
    + destruct AK as [U1 _], AK2 as [U2 _]. destruct C2 as [-> | ->]; congruence.
Qed.

(** ** The proxy does what it is asked *)
Lemma instruct_pass l data : Forall not_pda l -> instruct l data = Ok (l, data).
Proof. intros F. induction F as [|m l N F IH]; [reflexivity|]. cbn [instruct]. destruct m; [destruct N| |]; cbn [mw_instruction rbind]; rewrite IH; reflexivity. Qed.
Lemma instruct_main l b bi r d p : Forall not_pda l -> Forall not_pda r -> d <> 0 -> instruct (l ++ MPda b bi :: r) (d :: p) = Ok (l ++ MPda b bi :: r, p).
Proof.
  intros FL FR ND. induction FL as [|m l N FL IH]; cbn [app instruct].
  - unfold mw_instruction. replace (d =? 0) with false by lia. cbn [rbind]. rewrite instruct_pass by assumption. reflexivity.
  - destruct m; [destruct N| |]; cbn [mw_instruction rbind]; rewrite IH; reflexivity.
Qed.
Lemma handle_pass ms i l x : Forall not_pda l -> (i = ISettleFunds -> forall r, In (MReferral r) l -> referral_passed px (x_store x) (x_accts x) r) -> handle_all e px ms i l x = Ok x.
Proof.
  intros F. induction F as [|m l N F IH]; intros R; [reflexivity|]. cbn [handle_all].
  assert (HM : handle e px ms i m x = Ok x).
  { destruct m; [destruct N|destruct i; reflexivity|]. destruct i; try reflexivity. cbn [handle]. unfold ref_settle. destruct (R eq_refl r (or_introl eq_refl)) as (a & N9 & AU). unfold at_, unwrap. rewrite N9. cbn [rbind]. rewrite AU, Z.eqb_refl. reflexivity. }
  rewrite HM. cbn [rbind]. apply IH. intros EI r IN. apply R; [exact EI|right; exact IN].
Qed.
Lemma handle_cat ms i l r x x1 : handle_all e px ms i l x = Ok x1 -> handle_all e px ms i (l ++ r) x = handle_all e px ms i r x1.
Proof. revert x. induction l as [|m l IH]; intros x H; cbn [app handle_all] in *; [congruence|]. peel H. rewrite E. cbn [rbind]. apply IH. exact H. Qed.
Theorem run_complete c mws s d acc n i mi ui oi k u x s' : guarded mws -> wf_instr i -> spots i = Some (mi, ui, oi) -> relayed i = Some n -> (n <= length acc)%nat ->
  key_at acc mi = Some k -> signs acc ui u -> key_at acc oi = Some x -> px_open px k u (px_bump px k u) = Some x ->
  (i = ISettleFunds -> forall r, In (MReferral r) mws -> exists a t, key_at acc 9 = Some a /\ token_at s a = Some t /\ t_owner t = r) ->
  forall acc', replaced ui (mkMeta x true) acc acc' -> process e c s i acc' = Ok s' -> d <> 0 ->
  run e px c mws s (mkMeta (e_prog e) false :: acc) (d :: pack i) = Ok s'.
Proof.
  intros (l & b & bi & r & EM & FL & FR) WF SP RL LE HK HU HX HP RF acc' (RL1 & RA & RO) PR ND. unfold run. cbn [mk]. rewrite Z.eqb_refl. cbn [check rbind]. rewrite EM, instruct_main by assumption. cbn [rbind]. rewrite (pack_unpack _ WF), RL.
  replace ((n <=? length acc)%nat) with true by (symmetry; apply Nat.leb_le; exact LE). cbn [check rbind].
  unfold key_at in HK, HX. destruct (nth_error acc mi) as [mkt|] eqn:N1; [|discriminate]. destruct (nth_error acc oi) as [oo|] eqn:N3; [|discriminate]. cbn [option_map] in HK, HX. injection HK as <-. injection HX as <-. unfold signs in HU.
  assert (EA : acc' = set_nth ui (mkMeta (mk oo) true) acc).
  { assert (LU : (ui < length acc)%nat) by (apply nth_error_Some; congruence). apply nth_ext with (d := mkMeta 0 false) (d' := mkMeta 0 false); [rewrite set_nth_len; exact RL1|]. intros j LJ.
    destruct (Nat.eq_dec j ui) as [->|NJ]; [rewrite (nth_error_nth _ _ _ RA), (nth_error_nth _ _ _ (set_nth_at ui (mkMeta (mk oo) true) acc LU)); reflexivity|].
    assert (LJ' : (j < length (set_nth ui (mkMeta (mk oo) true) acc))%nat) by (rewrite set_nth_len; lia).
    pose proof (nth_error_nth' _ (mkMeta 0 false) LJ) as Q1. pose proof (nth_error_nth' _ (mkMeta 0 false) LJ') as Q2. rewrite RO in Q1 by exact NJ. rewrite set_nth_other in Q2 by congruence. congruence. }
  set (x1 := mkCtx s acc' [SOpen (mk mkt) u (px_bump px (mk mkt) u)] [] []).
  assert (HH : forall ms, handle e px ms i (MPda b bi) (mkCtx s acc [] [] []) = Ok x1).
  { intros ms. assert (Q : pda_sign px mi ui oi (mkCtx s acc [] [] []) = Ok x1).
    { unfold pda_sign, at_, unwrap. cbn [x_accts x_store x_seeds x_pre x_post app]. rewrite N1, HU, N3. cbn [rbind mk mk_signer check]. unfold x1. rewrite EA. reflexivity. }
    destruct i; cbn [spots] in SP; try discriminate; injection SP as <- <- <-; exact Q. }
  assert (RP : forall acc0, (i = ISettleFunds -> nth_error acc0 9 = nth_error acc 9) -> i = ISettleFunds -> forall r0, In (MReferral r0) mws -> referral_passed px s acc0 r0).
  { intros acc0 Q EI r0 IN. destruct (RF EI r0 IN) as (a & t & KA & TA & OA). unfold key_at in KA. destruct (nth_error acc 9) as [a9|] eqn:N9; [|discriminate]. cbn [option_map] in KA. injection KA as <-.
    exists a9. split; [rewrite (Q EI); reflexivity|]. unfold authority_of. apply token_at_inv in TA. rewrite (proj2 TA). exact OA. }
  assert (HA : forall ms, handle_all e px ms i (l ++ MPda b bi :: r) (mkCtx s acc [] [] []) = Ok x1).
  { intros ms. rewrite (handle_cat _ _ _ _ _ (mkCtx s acc [] [] [])).
    - cbn [handle_all]. rewrite HH. cbn [rbind]. apply handle_pass; [assumption|]. intros EI r0 IN. unfold x1. cbn [x_store x_accts]. apply RP; [|exact EI|rewrite EM; apply in_or_app; right; right; exact IN].
      intros _. apply RO. subst i. cbn [spots] in SP. injection SP as _ <- _. discriminate.
    - apply handle_pass; [assumption|]. intros EI r0 IN. cbn [x_store x_accts]. apply RP; [reflexivity|exact EI|rewrite EM; apply in_or_app; left; exact IN]. }
  rewrite HA. cbn [rbind]. unfold x1. cbn [x_pre x_post x_store x_accts x_seeds call_tokens rbind]. unfold call_dex. cbn [seed_keys seed_key]. rewrite HP. cbn [ok_or rbind].
  match goal with |- context [forallb ?f acc'] => assert (FB : forallb f acc' = true) end.
  { apply forallb_forall. intros a IA. unfold may_sign. rewrite EA in IA. apply set_nth_in in IA. destruct IA as [->|IA].
    - cbn [mk existsb]. rewrite Z.eqb_refl. cbn [orb]. apply orb_true_r.
    - destruct (mk_signer a) eqn:SA; [|reflexivity]. cbn [negb orb]. replace (signed_in (mkMeta (e_prog e) false :: acc) (mk a)) with true; [reflexivity|]. symmetry. apply signed_in_by. exists a. split; [right; exact IA|auto]. }
  rewrite FB. cbn [check rbind]. unfold process_bytes. rewrite (pack_unpack _ WF). cbn [ok_or rbind]. rewrite (process_mono e c s i acc' (merge acc') (merge_le acc') _ PR). reflexivity.
Qed.

(** Orders: if the dex would take the order from the address, were that allowed to spend the declared most from the user's wallet, the proxy takes it. *)
Lemma order_wallet c s ix ms s' py t : anytime e s -> process e c s (INewOrderV3 ix) ms = Ok s' -> key_at ms 6 = Some py -> token_at s py = Some t ->
  exists t', token_at s' py = Some t' /\ t_owner t' = t_owner t /\ t_state t' = t_state t.
Proof.
  intros AT PR KP HT. pose proof (anytime_struct e EO s AT) as WS. cbn [process] in PR.
  destruct (new_order_ran e s c ix _ s' WS PR) as (k & x & pp & w & m & bids & asks0 & q & rq & tr & oo & pt & o' & rq' & oo' & dep & R).
  destruct R as [(rest & KM) SG7 FL [HM NB HBd HA HQ] HR HP HMI LO OWN HC TR _]. rewrite (key_map _ _ _ KM) in KP. cbn [nth_error] in KP. injection KP as ->.
  destruct (oo_touch e s m k x _ _ _ oo WS HM LO) as (TC & F & MK).
  pose proof (write_obs_D e s k m bids asks0 q rq HM NB HBd HA HQ HR o') as V1. pose proof (write_obs_quiet e EO s k m bids asks0 q rq HM NB HBd HA HQ HR o') as Q1.
  set (z1 := write_obs s k (m_bids m) (m_asks m) (m_event_q m) o') in *.
  assert (V2 : forall y, D (put_data z1 (m_req_q m) (DReqQ rq')) y = overlay e s k m o' rq' None y) by (intros; eapply put_req_D; eauto).
  assert (R1 : exists d, D z1 (m_req_q m) = Some d).
  { rewrite V1. unfold overlay. repeat match goal with |- context [if ?b then _ else _] => destruct b end; eauto. }
  destruct R1 as (d1 & R1). pose proof (quiet_put e EO _ _ (DReqQ rq') _ R1) as Q2. set (z2 := put_data z1 _ _) in *.
  assert (R2 : exists d, D z2 x = Some d) by (rewrite (over_touch e s k m bids asks0 q rq WS HM NB HBd HA HQ HR z2 o' rq' x TC V2); eapply touch_some; exact TC).
  destruct R2 as (d2 & R2). pose proof (quiet_put e EO _ _ (DOO oo') _ R2) as Q3. set (z3 := put_data z2 _ _) in *. pose proof (quiet_trans _ _ _ (quiet_trans _ _ _ Q1 Q2) Q3) as Q. pose proof (qu_tok _ _ Q) as QT.
  destruct (transfer_in_ok e (eo_spl _ EO) _ _ _ _ _ _ _ TR) as [(_ & ->)|(_ & TF & NV)]; [exists t; rewrite QT; auto|].
  destruct (tr_tok _ _ _ _ _ _ _ TF) as (ts & td & TS & TD & _ & _ & _ & _ & _ & RR). match type of NV with ?a <> ?b => replace (a =? b) with false in RR by lia end. destruct RR as (_ & RR).
  rewrite QT in TS. assert (ts = t) by congruence. subst ts. rewrite RR. match goal with |- context [if ?b then _ else _] => replace b with false by lia end. rewrite Z.eqb_refl. eexists. split; [reflexivity|].
  destruct (is_delegate t w); auto.
Qed.
Theorem order_complete c mws s d acc ix k u x payer m t s2 : guarded mws -> anytime e s -> legal e acc -> wf_instr (INewOrderV3 ix) -> (12 <= length acc)%nat ->
  key_at acc 0 = Some k -> key_at acc 1 = Some x -> key_at acc 6 = Some payer -> signs acc 7 u -> px_open px k u (px_bump px k u) = Some x ->
  D s k = Some (DMarket m) -> token_at s payer = Some t -> t_owner t = u -> t_state t = 1 ->
  let most := match oi_side ix with Bid => oi_pc ix | Ask => oi_qty ix * m_coin_lot m end in
  most < B64 ->
  forall acc', replaced 7 (mkMeta x true) acc acc' ->
  process e c (put_data s payer (DToken (mkToken (t_mint t) u (t_amount t) (Some x) most 1 (t_close t)))) (INewOrderV3 ix) acc' = Ok s2 -> d <> 0 ->
  exists s', run e px c mws s (mkMeta (e_prog e) false :: acc) (d :: pack (INewOrderV3 ix)) = Ok s' /\ forall y, D s' y = D s2 y.
Proof.
  intros (l & b & bi & r & EM & FL & FR) AT LG WF LE HK HX HPY HU HP HM HT OW ST most LM acc' (RL1 & RA & RO) PR ND.
  unfold run. cbn [mk]. rewrite Z.eqb_refl. cbn [check rbind]. rewrite EM, instruct_main by assumption. cbn [rbind]. rewrite (pack_unpack _ WF). cbn [relayed].
  replace ((12 <=? length acc)%nat) with true by (symmetry; apply Nat.leb_le; exact LE). cbn [check rbind].
  unfold key_at in HK, HX, HPY. destruct (nth_error acc 0) as [mkt|] eqn:N0; [|discriminate]. destruct (nth_error acc 1) as [oo|] eqn:N1; [|discriminate]. destruct (nth_error acc 6) as [py|] eqn:N6; [|discriminate].
  cbn [option_map] in HK, HX, HPY. injection HK as <-. injection HX as <-. injection HPY as <-. unfold signs in HU.
  assert (EA : acc' = set_nth 7 (mkMeta (mk oo) true) acc).
  { assert (LU : (7 < length acc)%nat) by lia. apply nth_ext with (d := mkMeta 0 false) (d' := mkMeta 0 false); [rewrite set_nth_len; exact RL1|]. intros j LJ.
    destruct (Nat.eq_dec j 7) as [->|NJ]; [rewrite (nth_error_nth _ _ _ RA), (nth_error_nth _ _ _ (set_nth_at 7 (mkMeta (mk oo) true) acc LU)); reflexivity|].
    assert (LJ' : (j < length (set_nth 7 (mkMeta (mk oo) true) acc))%nat) by (rewrite set_nth_len; lia).
    pose proof (nth_error_nth' _ (mkMeta 0 false) LJ) as Q1. pose proof (nth_error_nth' _ (mkMeta 0 false) LJ') as Q2. rewrite RO in Q1 by exact NJ. rewrite set_nth_other in Q2 by congruence. congruence. }
  set (x1 := mkCtx s acc' [SOpen (mk mkt) u (px_bump px (mk mkt) u)] [TApprove (mk py) (mk oo) u most] [TRevoke (mk py) u]).
  assert (HH : forall ms, handle e px ms (INewOrderV3 ix) (MPda b bi) (mkCtx s acc [] [] []) = Ok x1).
  { intros ms. cbn [handle]. unfold pda_order, at_, unwrap. cbn [x_accts x_store x_seeds x_pre x_post app]. rewrite N0, HU, N1, N6. cbn [rbind mk mk_signer check].
    assert (EL : lot_of px (sget s (mk mkt)) = m_coin_lot m) by (unfold lot_of; apply dexd_owned in HM; rewrite (proj2 HM); reflexivity). rewrite EL.
    assert (EMO : (match oi_side ix with Bid => Ok (oi_pc ix) | Ask => cmul (oi_qty ix) (m_coin_lot m) end) = Ok most).
    { unfold most in *. destruct (oi_side ix); [reflexivity|]. unfold cmul. replace (oi_qty ix * m_coin_lot m <? B64) with true by lia. reflexivity. }
    rewrite EMO. cbn [rbind]. unfold x1. rewrite EA. reflexivity. }
  assert (HA : forall ms, handle_all e px ms (INewOrderV3 ix) (l ++ MPda b bi :: r) (mkCtx s acc [] [] []) = Ok x1).
  { intros ms. rewrite (handle_cat _ _ _ _ _ (mkCtx s acc [] [] [])).
    - cbn [handle_all]. rewrite HH. cbn [rbind]. apply handle_pass; [assumption|discriminate].
    - apply handle_pass; [assumption|discriminate]. }
  set (ms := mkMeta (e_prog e) false :: acc). assert (SU : signed_by ms u) by (exists (mkMeta u true); split; [right; eapply nth_error_In; exact HU|auto]). assert (SI : signed_in ms u = true) by (apply signed_in_by; exact SU).
  rewrite HA. cbn [rbind]. unfold x1. cbn [x_pre x_post x_store x_accts x_seeds call_tokens call_token]. unfold tok_set at 1. rewrite HT. cbn [ok_or rbind]. rewrite ST, OW, SI, !Z.eqb_refl. cbn [check rbind Z.eqb Pos.eqb].
  assert (EP : put_data s (mk py) (DToken (set_delegate t (Some (mk oo)) most)) = put_data s (mk py) (DToken (mkToken (t_mint t) u (t_amount t) (Some (mk oo)) most 1 (t_close t)))) by (unfold set_delegate; rewrite OW, ST; reflexivity).
  rewrite EP. set (s1 := put_data s (mk py) _) in *.
  assert (AT1 : anytime e s1).
  { destruct AT as (s0 & G & L). exists s0. split; [exact G|]. eapply later_env; [exact L|]. assert (LGM : legal e ms) by (intros a [<-|IA] SA PD; [discriminate|exact (LG a IA SA PD)]).
    apply (tok_set_rely e EO s ms (mk py) u (Some (mk oo)) most); [exact LGM|apply (anytime_amounts e EO); exists s0; auto|]. unfold tok_set. rewrite HT. cbn [ok_or rbind]. rewrite ST, OW, SI, !Z.eqb_refl. cbn [check rbind Z.eqb Pos.eqb]. rewrite EP. reflexivity. }
  unfold call_dex. cbn [seed_keys seed_key]. rewrite HP. cbn [ok_or rbind].
  match goal with |- context [forallb ?f acc'] => assert (FB : forallb f acc' = true) end.
  { apply forallb_forall. intros a IA. unfold may_sign. rewrite EA in IA. apply set_nth_in in IA. destruct IA as [->|IA].
    - cbn [mk existsb]. rewrite Z.eqb_refl. cbn [orb]. apply orb_true_r.
    - destruct (mk_signer a) eqn:SA; [|reflexivity]. cbn [negb orb]. replace (signed_in ms (mk a)) with true; [reflexivity|]. symmetry. apply signed_in_by. exists a. split; [right; exact IA|auto]. }
  rewrite FB. cbn [check rbind]. unfold process_bytes. rewrite (pack_unpack _ WF). cbn [ok_or rbind]. pose proof (process_mono e c s1 _ acc' (merge acc') (merge_le acc') _ PR) as PR1. rewrite PR1. cbn [rbind].
  assert (TP : token_at s1 (mk py) = Some (mkToken (t_mint t) u (t_amount t) (Some (mk oo)) most 1 (t_close t))) by (unfold s1; rewrite (token_put_token _ _ _ _ _ HT), Z.eqb_refl; reflexivity).
  destruct (order_wallet c s1 ix acc' s2 (mk py) _ AT1 PR ltac:(unfold key_at; rewrite RO by discriminate; rewrite N6; reflexivity) TP) as (t2 & T2 & O2 & S2). cbn [t_owner t_state] in O2, S2.
  unfold tok_set. rewrite T2. cbn [ok_or rbind]. rewrite S2, O2, SI, !Z.eqb_refl. cbn [check rbind Z.eqb Pos.eqb]. eexists. split; [reflexivity|]. intros y. exact (dexd_put_token e (eo_spl _ EO) _ _ _ _ _ T2).
Qed.
End More.
