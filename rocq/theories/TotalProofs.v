(** No instruction creates or destroys tokens or lamports (C84). *)
From Coq Require Import Permutation.
From Verif Require Import Base BaseProofs Fees FeesProofs ListSum Queue QueueProofs Codec CodecProofs Critbit CritbitSlab Market Matching
  MatchSteps MatchSpec MatchFacts Ledger Slots Core CoreInv CoreNew CoreCancel CoreConsume CoreSettle CoreFrame Instr InstrProofs
  Store Process StoreProofs World WorldInv WorldLoad WorldRun WorldStep WorldStep2 WorldConsume WorldInit WorldMain WorldSpec WorldFacts
  WorldFwd WorldCancel WorldPay WorldTrade WorldAuth WorldRights WorldRent TotalSpec.

(** Two entries change by opposite amounts. *)
Lemma zsum_swap (f g : Z -> Z) a b n K : NoDup K -> In a K -> In b K -> a <> b -> g a = f a - n -> g b = f b + n -> (forall x, x <> a -> x <> b -> g x = f x) -> zsum g K = zsum f K.
Proof.
  intros ND IA IB N GA GB GX. assert (E : forall l, NoDup l -> zsum g l = zsum f l - (if in_dec Z.eq_dec a l then n else 0) + (if in_dec Z.eq_dec b l then n else 0)).
  { induction l as [|x r IH]; intros NDl; [cbn; lia|]. inversion NDl as [|? ? NI NDr]; subst. cbn [zsum]. rewrite (IH NDr).
    destruct (Z.eq_dec x a) as [->|N1]; [|destruct (Z.eq_dec x b) as [->|N2]].
    - rewrite GA. destruct (in_dec Z.eq_dec a (a :: r)) as [_|X]; [|exfalso; apply X; left; reflexivity]. destruct (in_dec Z.eq_dec a r); [contradiction|].
      destruct (in_dec Z.eq_dec b (a :: r)) as [[X|X]|X], (in_dec Z.eq_dec b r); try lia; try contradiction. exfalso. apply X. right. assumption.
    - rewrite GB. destruct (in_dec Z.eq_dec b (b :: r)) as [_|X]; [|exfalso; apply X; left; reflexivity]. destruct (in_dec Z.eq_dec b r); [contradiction|].
      destruct (in_dec Z.eq_dec a (b :: r)) as [[X|X]|X], (in_dec Z.eq_dec a r); try lia; try contradiction. exfalso. apply X. right. assumption.
    - rewrite (GX x N1 N2). destruct (in_dec Z.eq_dec a (x :: r)) as [[X|X]|X], (in_dec Z.eq_dec a r), (in_dec Z.eq_dec b (x :: r)) as [[Y|Y]|Y], (in_dec Z.eq_dec b r); try lia; try contradiction; exfalso; first [apply X; right; assumption|apply Y; right; assumption]. }
  rewrite (E K ND). destruct (in_dec Z.eq_dec a K), (in_dec Z.eq_dec b K); lia || contradiction.
Qed.

Section Total.
Variable e : env.
Hypothesis EO : env_ok e.
Notation D := (dexd e).
Definition conserve (s s' : store) : Prop := (forall v, token_at s v = None <-> token_at s' v = None) /\ forall mint K, all_holders s K -> zsum (holding mint s') K = zsum (holding mint s) K.
Lemma conserve_same s s' : (forall v, token_at s' v = token_at s v) -> conserve s s'.
Proof. intros Q. split; [intros v; rewrite Q; reflexivity|]. intros mint K _. apply zsum_ext. intros v _. unfold holding. rewrite Q. reflexivity. Qed.
Lemma holders_next s s' K : (forall v, token_at s v = None <-> token_at s' v = None) -> all_holders s K -> all_holders s' K.
Proof. intros H [ND A]. split; [exact ND|]. intros v t T. destruct (token_at s v) as [t0|] eqn:E; [exact (A v t0 E)|]. apply H in E. congruence. Qed.
Lemma conserve_trans a b c : conserve a b -> conserve b c -> conserve a c.
Proof.
  intros [H1 S1] [H2 S2]. split; [intros v; rewrite H1; apply H2|]. intros mint K A. rewrite (S2 mint K (holders_next _ _ _ H1 A)). exact (S1 mint K A).
Qed.
Lemma conserve_move s s' src dst auth amt : transferred e s s' src dst auth amt -> conserve s s'.
Proof.
  intros T. destruct (tr_tok _ _ _ _ _ _ _ T) as (ts & td & H1 & H2 & M & _ & _ & _ & _ & R).
  destruct (Z.eqb_spec src dst) as [E|NE]; [subst s'; apply conserve_same; reflexivity|]. destruct R as [_ R]. split.
  - intros v. rewrite R. destruct (Z.eqb_spec v dst) as [->|]; [rewrite H2; split; discriminate|]. destruct (Z.eqb_spec v src) as [->|]; [rewrite H1; split; discriminate|reflexivity].
  - intros mint K [ND A]. assert (MU : forall t (a b : Z), t_mint (if is_delegate t a then use_delegate t b else t) = t_mint t) by (intros; unfold use_delegate; destruct (is_delegate t a); [|reflexivity]; cbv zeta; match goal with |- context [if ?c then _ else _] => destruct c end; reflexivity).
    apply (zsum_swap _ _ src dst (if t_mint ts =? mint then amt else 0) K ND (A _ _ H1) (A _ _ H2) NE).
    + unfold holding. rewrite R, H1, Z.eqb_refl. replace (src =? dst) with false by lia. cbn [set_amount t_mint t_amount]. rewrite MU. destruct (_ =? _); lia.
    + unfold holding. rewrite R, H2, Z.eqb_refl. cbn [set_amount t_mint t_amount]. rewrite M. destruct (_ =? _); lia.
    + intros x N1 N2. unfold holding. rewrite R. replace (x =? dst) with false by lia. replace (x =? src) with false by lia. reflexivity.
Qed.
Lemma conserve_in s s' h src v auth amt : transfer_in s h src v auth amt = Ok s' -> conserve s s'.
Proof. intros H. destruct (transfer_in_ok e (eo_spl _ EO) _ _ _ _ _ _ _ H) as [(-> & ->)|(_ & T & _)]; [apply conserve_same; reflexivity|eapply conserve_move; exact T]. Qed.
Lemma conserve_out s s' src v auth amt : send_from_vault s src v auth amt = Ok s' -> conserve s s'.
Proof. intros H. eapply conserve_move. eapply send_from_vault_ok; [exact (eo_spl _ EO)|exact H]. Qed.

Lemma order_total s c ix ms s' : wstruct (D s) -> proc_new_order e c s ix ms = Ok s' -> conserve s s'.
Proof.
  intros W H. destruct (new_order_ran e s c ix ms s' W H) as (k & x & payer & w & m & bids & asks & q & rq & t & oo & pt & o' & rq' & oo' & dep & R).
  destruct R as [(rest & KM) SG FL [HM NB HB HA HQ] HR HP HMI LO OW HC TR _].
  destruct (oo_touch e s m k x _ _ _ oo W HM LO) as (T & F & MK).
  pose proof (write_obs_D e s k m bids asks q rq HM NB HB HA HQ HR o') as V1. pose proof (write_obs_quiet e EO s k m bids asks q rq HM NB HB HA HQ HR o') as Q1.
  set (s1 := write_obs s k (m_bids m) (m_asks m) (m_event_q m) o') in *.
  assert (V2 : forall y, D (put_data s1 (m_req_q m) (DReqQ rq')) y = overlay e s k m o' rq' None y) by (intros; eapply put_req_D; eauto).
  assert (R1 : exists d, D s1 (m_req_q m) = Some d).
  { rewrite V1. unfold overlay. repeat match goal with |- context [if ?b then _ else _] => destruct b end; eauto. }
  destruct R1 as (d1 & R1). pose proof (quiet_put e EO _ _ (DReqQ rq') _ R1) as Q2. set (s2 := put_data s1 _ _) in *.
  assert (R2 : exists d, D s2 x = Some d) by (rewrite (over_touch e s k m bids asks q rq W HM NB HB HA HQ HR s2 o' rq' x T V2); eapply touch_some; exact T).
  destruct R2 as (d2 & R2). pose proof (quiet_put e EO _ _ (DOO oo') _ R2) as Q3. set (s3 := put_data s2 _ _) in *.
  pose proof (quiet_trans _ _ _ (quiet_trans _ _ _ Q1 Q2) Q3) as Q.
  eapply conserve_trans; [apply conserve_same; exact (qu_tok _ _ Q)|]. eapply conserve_in. exact TR.
Qed.
Lemma take_total s ix ms s' : wstruct (D s) -> proc_send_take e s ix ms = Ok s' -> conserve s s'.
Proof.
  intros W H. destruct (send_take_ran e s ix ms s' W H) as (k & cw & pw & w & p & m & bids & asks & q & rq & t & o' & rq' & dep & wd & s2 & R).
  destruct R as [(rest & KM) SG FL [HM NB HB HA HQ] HR HP HC TI TO _].
  pose proof (write_obs_D e s k m bids asks q rq HM NB HB HA HQ HR o') as V1. pose proof (write_obs_quiet e EO s k m bids asks q rq HM NB HB HA HQ HR o') as Q1.
  set (s1 := write_obs s k (m_bids m) (m_asks m) (m_event_q m) o') in *.
  assert (R1 : exists d, D s1 (m_req_q m) = Some d).
  { rewrite V1. unfold overlay. repeat match goal with |- context [if ?b then _ else _] => destruct b end; eauto. }
  destruct R1 as (d1 & R1). pose proof (quiet_put e EO _ _ (DReqQ rq') _ R1) as Q2. pose proof (quiet_trans _ _ _ Q1 Q2) as Q.
  eapply conserve_trans; [apply conserve_same; exact (qu_tok _ _ Q)|]. eapply conserve_trans; [eapply conserve_in; exact TI|].
  destruct (wd =? 0); [subst s'; apply conserve_same; reflexivity|]. eapply conserve_out. exact TO.
Qed.
Lemma settle_total s ms s' : wstruct (D s) -> proc_settle e s ms = Ok s' -> conserve s s'.
Proof.
  intros W H. destruct (settle_ran e s ms s' W H) as (k & x & w & cw & pw & p & ref & m & oo & m' & oo' & ca & pa & rb & s2 & s3 & R).
  destruct R as [(spl & r1) r2 r3 r4 r5 r6 r7 r8 r9 r10]. assert (T : touchable e s k x) by (right; eauto).
  pose proof (quiet_mkt_oo e EO s k m m' x oo' r3 T) as Q.
  eapply conserve_trans; [apply conserve_same; exact (qu_tok _ _ Q)|]. eapply conserve_trans; [eapply conserve_out; exact r8|]. eapply conserve_trans; [eapply conserve_out; exact r9|].
  destruct ref, rb; try (subst s'; apply conserve_same; reflexivity). eapply conserve_out. exact r10.
Qed.
Lemma sweep_total s ms s' : wstruct (D s) -> proc_sweep e s ms = Ok s' -> conserve s s'.
Proof.
  intros W H. destruct (sweep_deed e EO _ _ _ W H) as (k & m & pw & p & spl & _ & _ & _ & _ & _ & T & Q & _).
  eapply conserve_trans; [apply conserve_same; exact Q|]. eapply conserve_move. exact T.
Qed.
Lemma orders_total c ms ixs : forall s s', wstruct (D s) -> proc_new_orders e c s ixs ms = Ok s' -> conserve s s'.
Proof.
  induction ixs as [|ix r IH]; intros s s' W H; cbn [proc_new_orders] in H; [injection H as <-; apply conserve_same; reflexivity|].
  apply rbind_ok in H. destruct H as (s1 & H1 & H). destruct (order_deed e EO _ _ _ _ _ W H1) as (k & x & w & m & m' & oo & oo' & _ & _ & _ & _ & _ & DE & _).
  eapply conserve_trans; [eapply order_total; [exact W|exact H1]|]. exact (IH _ _ (de_str _ _ _ _ _ _ _ DE) H).
Qed.
Lemma cancel_total s core ms s' : wstruct (D s) -> proc_cancel e s core ms = Ok s' ->
  (forall o x oo o' oo', core o x oo = Ok (o', oo') -> ob_mkt o' = ob_mkt o /\ same_id oo oo') -> conserve s s' /\ wstruct (D s').
Proof.
  intros W H FR. destruct (cancel_deed e EO _ _ _ _ W H FR) as (k & x & w & m & oo & oo' & _ & _ & _ & DE & _ & _ & _ & TK). split; [apply conserve_same; exact TK|exact (de_str _ _ _ _ _ _ _ DE)].
Qed.
Lemma replace_total s c ixs ms s' : wstruct (D s) -> proc_replace e c s ixs ms = Ok s' -> conserve s s'.
Proof.
  intros W H. unfold proc_replace in H. apply rbind_ok in H. destruct H as (cms & _ & H). apply rbind_ok in H. destruct H as (s1 & H1 & H).
  destruct (cancel_total _ _ _ _ W H1 ltac:(intros * HH; eapply cancel_cids_frame; exact HH)) as [C1 W1]. eapply conserve_trans; [exact C1|]. eapply orders_total; eassumption.
Qed.
Theorem process_total c s i ms s' : wstruct (D s) -> process e c s i ms = Ok s' -> conserve s s'.
Proof.
  intros W H. pose proof H as H0. destruct i; cbn [process] in H; try discriminate.
  - destruct (init_ran e _ _ _ _ _ H) as (k & rqa & eqa & ba & aa & cv & pv & cm & pm & p & auths & R). destruct (in_view e EO _ _ _ _ _ _ _ _ _ _ _ _ _ _ _ R) as [_ Q]. apply conserve_same. exact (qu_tok _ _ Q).
  - injection H as <-. apply conserve_same. reflexivity.
  - destruct (crank_view e EO s c _ ms s' W H0 ltac:(eexists; auto)) as (k & m & _ & _ & _ & TK & _). apply conserve_same. exact TK.
  - eapply settle_total; eassumption.
  - destruct (disable_deed e EO _ _ _ W H) as (k & m & _ & _ & _ & _ & _ & TK). apply conserve_same. exact TK.
  - eapply sweep_total; eassumption.
  - eapply order_total; eassumption.
  - apply (cancel_total _ _ _ _ W H). cbv beta. intros * HH. eapply cancel_v2_frame. exact HH.
  - unfold proc_cancel_cid in H. apply rbind_ok in H. destruct H as (? & _ & H). apply (cancel_total _ _ _ _ W H). cbv beta. intros * HH. eapply cancel_cid_frame. exact HH.
  - eapply take_total; eassumption.
  - destruct (close_deed e EO _ _ _ W H) as (k & x & w & dest & m & oo & oo' & _ & _ & _ & _ & _ & _ & TK & _). apply conserve_same. exact TK.
  - destruct (init_oo_deed e EO _ _ _ _ W H) as (k & x & w & m & oo & rest & _ & _ & _ & _ & _ & _ & TK). apply conserve_same. exact TK.
  - destruct (prune_deed e EO _ _ _ _ W H) as (k & x & auth & m & oo & oo' & _ & _ & _ & _ & _ & _ & _ & _ & TK). apply conserve_same. exact TK.
  - destruct (crank_view e EO s c _ ms s' W H0 ltac:(eexists; auto)) as (k & m & _ & _ & _ & TK & _). apply conserve_same. exact TK.
  - apply (cancel_total _ _ _ _ W H). cbv beta. intros * HH. eapply cancel_cids_frame. exact HH.
  - eapply replace_total; eassumption.
  - eapply replace_total; eassumption.
Qed.
Theorem tokens_total s c b ms : anytime e s -> let s' := transact e c s b ms in
  (forall v, token_at s v = None <-> token_at s' v = None) /\ forall mint K, all_holders s K -> all_holders s' K /\ zsum (holding mint s') K = zsum (holding mint s) K.
Proof.
  intros AT s'. assert (C : conserve s s').
  { unfold s', transact. destruct (process_bytes e c s b ms) as [s1| |] eqn:E; try (apply conserve_same; reflexivity). unfold process_bytes in E. apply rbind_ok in E. destruct E as (i & _ & E).
    eapply process_total; [exact (anytime_struct e EO s AT)|exact E]. }
  destruct C as [C1 C2]. split; [exact C1|]. intros mint K A. split; [eapply holders_next; [exact C1|exact A]|exact (C2 mint K A)].
Qed.
Theorem lamports_total s c b ms K : anytime e s -> NoDup K -> incl (map mk ms) K -> zsum (lamports (transact e c s b ms)) K = zsum (lamports s) K.
Proof.
  intros AT ND IN. unfold transact. destruct (process_bytes e c s b ms) as [s1| |] eqn:E; try reflexivity. unfold process_bytes in E. apply rbind_ok in E. destruct E as (i & _ & E).
  assert (CL : i = ICloseOO \/ i <> ICloseOO) by (destruct i; (left; reflexivity) || (right; discriminate)). destruct CL as [->|N].
  - destruct (close_done e EO s c ms s1 AT E) as (x & oo & dest & k & m & KM & _ & _ & _ & _ & _ & _ & _ & _ & _ & LX & LD & ON).
    destruct (Z.eq_dec dest x) as [->|ND2].
    + cbn [process] in E. destruct (close_ran e s ms s1 (anytime_struct e EO s AT) E) as (k1 & x1 & w1 & dest1 & m1 & oo1 & oo1' & sum & KM1 & _ & _ & _ & _ & _ & DS & _). rewrite KM in KM1. injection KM1 as <- _ <- _.
      assert (Z0 : a_lamports (sget s x) = 0) by (destruct DS; [contradiction|assumption]).
      apply zsum_ext. intros v _. unfold lamports. destruct (Z.eq_dec v x) as [->|NV]; [congruence|]. rewrite ON; [reflexivity|cbn [In]; intuition congruence].
    + apply (zsum_swap _ _ x dest (lamports s x) K ND); [apply IN; rewrite KM; cbn [In]; auto|apply IN; rewrite KM; cbn [In]; auto|congruence|unfold lamports; lia|unfold lamports; apply LD; exact ND2|].
      intros v N1 N2. unfold lamports. rewrite ON; [reflexivity|cbn [In]; intuition congruence].
  - apply zsum_ext. intros v _. unfold lamports. apply (proj2 (proj2 (sizes_kept e _ _ _ _ _ E v))). exact N.
Qed.
End Total.
