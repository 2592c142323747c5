(** The program writes only to accounts it owns and, through the token program, to token accounts (C80). *)
From Verif Require Import Base BaseProofs Fees Queue Codec Critbit Market Matching Slots Core Instr Store Process StoreProofs World WorldInv WorldSpec WorldLoad WorldRun WorldInit WorldAuth WorldCrank WorldRights WorldRent LocalSpec LocalProofs.

Section Foreign.
Variable e : env.
Hypothesis EO : env_ok e.
Notation D := (dexd e).
Definition tame (s s' : store) : Prop := forall x, a_prog (sget s' x) = a_prog (sget s x) /\ (a_prog (sget s x) <> e_prog e -> a_prog (sget s x) <> spl_id -> a_data (sget s' x) = a_data (sget s x)).
Lemma tame_refl s : tame s s. Proof. intros x. auto. Qed.
Lemma tame_trans a b c : tame a b -> tame b c -> tame a c.
Proof. intros H1 H2 x. destruct (H1 x) as [P1 Q1], (H2 x) as [P2 Q2]. split; [congruence|]. intros N1 N2. rewrite Q2 by congruence. auto. Qed.
Lemma tame_own s a k d : tame s a -> a_prog (sget s k) = e_prog e \/ a_prog (sget s k) = spl_id -> tame s (put_data a k d).
Proof.
  intros H K x. destruct (H x) as [P Q]. rewrite put_prog, put_data_eq. split; [exact P|]. intros N1 N2. destruct (Z.eqb_spec x k) as [->|]; [destruct K; contradiction|auto].
Qed.
Lemma tame_put s a k d d0 : tame s a -> D s k = Some d0 -> tame s (put_data a k d).
Proof. intros H K. apply tame_own; [exact H|left]. apply dexd_owned in K. apply K. Qed.
Lemma tame_lam s a k v : tame s a -> tame s (put_lamports a k v).
Proof. intros H x. rewrite sget_lam. destruct (Z.eqb_spec x k) as [->|]; [|apply H]. destruct (H k) as [P Q]. cbn [set_lamports a_prog a_data]. auto. Qed.
Lemma tame_transfer s src dst au sg amt s' : spl_transfer s src dst au sg amt = Ok s' -> tame s s'.
Proof.
  intros H. unfold spl_transfer in H. apply rbind_ok in H. destruct H as (? & _ & H). apply rbind_ok in H. destruct H as (ts & H1 & H). apply rbind_ok in H. destruct H as (td & H2 & H).
  do 6 (apply rbind_ok in H; destruct H as (? & _ & H)).
  destruct (token_at s src) as [t1|] eqn:E1; [|discriminate]. destruct (token_at s dst) as [t2|] eqn:E2; [|discriminate]. apply token_at_inv in E1, E2.
  destruct (src =? dst); [injection H as <-; apply tame_refl|]. apply rbind_ok in H. destruct H as (? & _ & H). injection H as <-.
  apply tame_own; [apply tame_own; [apply tame_refl|]|]; right; [apply E1|apply E2].
Qed.
Lemma tame_send s v d p amt s' : send_from_vault s v d p amt = Ok s' -> tame s s'.
Proof. unfold send_from_vault. intros H. destruct (spl_transfer s v d p true amt) eqn:E; try discriminate. injection H as <-. eapply tame_transfer; eassumption. Qed.
Lemma tame_in s h src v au amt s' : transfer_in s h src v au amt = Ok s' -> tame s s'.
Proof.
  unfold transfer_in. intros H. destruct (amt =? 0); [injection H as <-; apply tame_refl|]. apply rbind_ok in H. destruct H as (? & _ & H). apply rbind_ok in H. destruct H as (? & _ & H).
  apply rbind_ok in H. destruct H as (s1 & T & H). apply rbind_ok in H. destruct H as (? & _ & H). apply rbind_ok in H. destruct H as (? & _ & H). injection H as <-. eapply tame_transfer; eassumption.
Qed.
Lemma tame_obs s k m b a q o : books e s k m b a q -> tame s (write_obs s k (m_bids m) (m_asks m) (m_event_q m) o).
Proof. intros [B1 B2 B3 B4 B5]. unfold write_obs. repeat (eapply tame_put; [|eassumption]). apply tame_refl. Qed.
Lemma tame_order c s ix ms s' : wstruct (D s) -> proc_new_order e c s ix ms = Ok s' -> tame s s'.
Proof.
  intros W H. destruct (new_order_ran e _ _ _ _ _ W H) as (k & x & payer & w & m & bids & asks & q & rq & t & oo & pt & o' & rq' & oo' & dep & R).
  eapply tame_trans; [|eapply tame_in; exact (rn_move _ _ _ _ _ _ _ _ _ _ _ _ _ _ _ _ _ _ _ _ _ _ R)].
  assert (X : exists d, D s x = Some d) by (destruct (rn_oo _ _ _ _ _ _ _ _ _ _ _ _ _ _ _ _ _ _ _ _ _ _ R) as [(L & _)|(L & _)]; eauto). destruct X as (d & X).
  eapply tame_put; [eapply tame_put; [eapply tame_obs; exact (rn_books _ _ _ _ _ _ _ _ _ _ _ _ _ _ _ _ _ _ _ _ _ _ R)|exact (rn_req _ _ _ _ _ _ _ _ _ _ _ _ _ _ _ _ _ _ _ _ _ _ R)]|exact X].
Qed.
Lemma tame_cancel s core ms s' : wstruct (D s) -> proc_cancel e s core ms = Ok s' -> tame s s'.
Proof.
  intros W H. destruct (cancel_ran e _ _ _ _ W H) as (k & x & w & m & bids & asks & q & oo & o' & oo' & [F B L O C ->] & _). eapply tame_put; [eapply tame_obs; exact B|apply L].
Qed.
Lemma tame_orders c ms ixs : forall s s', wstruct (D s) -> proc_new_orders e c s ixs ms = Ok s' -> tame s s'.
Proof.
  induction ixs as [|ix r IH]; intros s s' W H; cbn [proc_new_orders] in H; [injection H as <-; apply tame_refl|]. apply rbind_ok in H. destruct H as (s1 & H1 & H).
  eapply tame_trans; [eapply tame_order; eassumption|]. eapply IH; [|exact H]. eapply act_struct; [exact W|]. eapply (process_act e EO c s (INewOrderV3 ix) ms); [exact W|exact H1].
Qed.
Lemma tame_loop m oos n : forall s q s' q', consume_loop e s m q oos n = Ok (s', q') -> tame s s'.
Proof.
  induction n as [|n IH]; intros s q s' q' H; cbn [consume_loop] in H; [injection H as <- _; apply tame_refl|].
  apply rbind_ok in H. destruct H as (oev & PK & H). destruct oev as [ev|]; [|injection H as <- _; apply tame_refl]. apply rbind_ok in H. destruct H as (v & VW & H).
  destruct (binary_search oos (e_owner ev)) eqn:BS; [|injection H as <- _; apply tame_refl]. apply rbind_ok in H. destruct H as (oo & LO & H). apply rbind_ok in H. destruct H as (oo' & CE & H). apply rbind_ok in H. destruct H as (r & PO & H).
  apply rbind_ok in H. destruct H as (q1 & HQ & H). destruct (load_orders_none _ _ _ _ _ LO) as (P1 & _).
  eapply tame_trans; [|eapply IH; exact H]. apply tame_own; [apply tame_refl|left; exact P1].
Qed.
Lemma tame_consume s m k eqa oos n s' : wstruct (D s) -> D s k = Some (DMarket m) -> consume_with e s m eqa oos n = Ok s' -> tame s s'.
Proof.
  intros W HM H. unfold consume_with in H. apply rbind_ok in H. destruct H as (q & HQ & H). destruct (load_evq_ok e s _ m W HM _ _ HQ) as (-> & DQ). apply rbind_ok in H. destruct H as ([s1 q1] & HL & H). injection H as <-.
  eapply tame_put; [eapply tame_loop; exact HL|exact DQ].
Qed.
Lemma process_tame c s i ms s' : wstruct (D s) -> process e c s i ms = Ok s' -> tame s s'.
Proof.
  intros W H. assert (RP : forall ixs, proc_replace e c s ixs ms = Ok s' -> tame s s').
  { intros ixs X. unfold proc_replace in X. apply rbind_ok in X. destruct X as (cms & _ & X). apply rbind_ok in X. destruct X as (s1 & X1 & X).
    eapply tame_trans; [eapply tame_cancel; [exact W|exact X1]|]. eapply tame_orders; [|exact X]. eapply act_struct; [exact W|]. eapply (process_act e EO c s (ICancelByCids _) cms); [exact W|exact X1]. }
  destruct i; cbn [process] in H; try discriminate.
  - destruct (init_ran e _ _ _ _ _ H) as (k & rqa & eqa & ba & aa & cv & pv & cm & pm & p & auths & R). rewrite (ri_store _ _ _ _ _ _ _ _ _ _ _ _ _ _ _ _ R).
    pose proof (ri_zero _ _ _ _ _ _ _ _ _ _ _ _ _ _ _ _ R) as Z0. repeat (eapply tame_put; [|apply Z0; cbn [In]; tauto]). apply tame_refl.
  - injection H as <-. apply tame_refl.
  - unfold proc_consume in H. destruct (rev ms) as [|z1 [|z2 [|eqa [|mkt [|z3 z4]]]]] eqn:ER; try discriminate. apply rbind_ok in H. destruct H as (m & HM & H). apply rbind_ok in H. destruct H as (? & HC & H).
    apply load_market_ok in HM. destruct HM as [HM _]. eapply tame_consume; eassumption.
  - destruct (settle_ran e _ _ _ W H) as (k & x & w & cw & pw & p & ref & m & oo & m' & oo' & ca & pa & rb & s2 & s3 & [K1 K2 K3 K4 K5 K6 K7 K8 K9 K10]).
    eapply tame_trans; [eapply tame_put; [eapply tame_put; [apply tame_refl|exact K3]|apply K5]|]. eapply tame_trans; [eapply tame_send; exact K8|]. eapply tame_trans; [eapply tame_send; exact K9|].
    destruct ref, rb; try (subst s'; apply tame_refl). eapply tame_send; exact K10.
  - destruct (disable_ran e _ _ _ W H) as (k & m & _ & _ & HM & _ & ->). eapply tame_put; [apply tame_refl|exact HM].
  - destruct (sweep_ran e _ _ _ W H) as (k & m & pw & p & spl & _ & _ & HM & _ & _ & T). eapply tame_trans; [eapply tame_put; [apply tame_refl|exact HM]|eapply tame_send; exact T].
  - eapply tame_order; eassumption.
  - eapply tame_cancel; eassumption.
  - unfold proc_cancel_cid in H. apply rbind_ok in H. destruct H as (? & _ & H). eapply tame_cancel; eassumption.
  - destruct (send_take_ran e _ _ _ _ W H) as (k & cw & pw & w & p & m & bids & asks & q & rq & t & o' & rq' & dep & wd & s2 & [K1 K2 K3 K4 K5 K6 K7 K8 K9 K10]).
    eapply tame_trans; [eapply tame_put; [eapply tame_obs; exact K4|exact K5]|]. eapply tame_trans; [eapply tame_in; exact K8|]. destruct (wd =? 0); [subst; apply tame_refl|eapply tame_send; exact K9].
  - destruct (close_ran e _ _ _ W H) as (k & x & w & dest & m & oo & oo' & sum & _ & _ & HM & L & _ & _ & _ & _ & ->).
    eapply tame_put; [apply tame_lam, tame_lam, tame_refl|apply L].
  - destruct (init_oo_ran e _ _ _ _ W H) as (k & x & w & m & auth & oo & rest & _ & _ & _ & HM & _ & L & _ & ->).
    destruct L as [(L & _)|(L & _)]; (eapply tame_put; [apply tame_refl|exact L]).
  - destruct (prune_ran e _ _ _ _ W H) as (k & x & w & auth & m & bids & asks & q & oo & o' & oo' & [F B L O C ->] & _). eapply tame_put; [eapply tame_obs; exact B|apply L].
  - unfold proc_consume_perm in H. destruct (rev ms) as [|z1 [|eqa [|mkt [|z3 z4]]]] eqn:ER; try discriminate. apply rbind_ok in H. destruct H as (m & HM & H). apply rbind_ok in H. destruct H as (? & HS & H).
    apply rbind_ok in H. destruct H as (? & HC & H). apply load_market_ok in HM. destruct HM as [HM _]. eapply tame_consume; eassumption.
  - eapply tame_cancel; eassumption.
  - eapply RP; exact H.
  - eapply RP; exact H.
Qed.
Theorem foreign_untouched s c i ms s' : anytime e s -> process e c s i ms = Ok s' -> forall x, others e s x ->
  a_data (sget s' x) = a_data (sget s x) /\ (i <> ICloseOO -> sget s' x = sget s x).
Proof.
  intros A H x [N1 N2]. pose proof (proj2 (process_tame _ _ _ _ _ (anytime_struct e EO _ A) H x) N1 N2) as E. split; [exact E|]. intros NC.
  destruct (sizes_kept e _ _ _ _ _ H x) as (L & P & M). specialize (M NC). destruct (sget s' x) as [y1 y2 y3 y4], (sget s x) as [z1 z2 z3 z4]; cbn [a_data a_len a_prog a_lamports] in *; congruence.
Qed.
Lemma transact_foreign s c b ms x : anytime e s -> unpack b <> Some ICloseOO -> others e s x -> sget (transact e c s b ms) x = sget s x.
Proof.
  intros A NC O. unfold transact, process_bytes. destruct (unpack b) as [i|]; cbn [ok_or rbind]; [|reflexivity]. destruct (process e c s i ms) as [s'|?|] eqn:E; try reflexivity.
  apply (proj2 (foreign_untouched _ _ _ _ _ A E x O)). congruence.
Qed.
Theorem disjoint_commute s c1 c2 b1 b2 ms1 ms2 : anytime e s -> unpack b1 <> Some ICloseOO -> unpack b2 <> Some ICloseOO ->
  (forall x, In x (map mk ms1) -> In x (map mk ms2) -> others e s x) ->
  same_world (transact e c2 (transact e c1 s b1 ms1) b2 ms2) (transact e c1 (transact e c2 s b2 ms2) b1 ms1).
Proof.
  intros A N1 N2 S. apply transactions_commute; intros x X.
  - destruct (in_dec Z.eq_dec x (map mk ms1)) as [I|I]; [symmetry; apply transact_foreign; auto|]. symmetry. apply (transact_only e c1 b1 ms1 s x I).
  - destruct (in_dec Z.eq_dec x (map mk ms2)) as [I|I]; [symmetry; apply transact_foreign; auto|]. symmetry. apply (transact_only e c2 b2 ms2 s x I).
Qed.
End Foreign.
