(** Pools make and burn pool tokens as their mints record, and nothing else (C86). *)
From Verif Require Import Base BaseProofs ListSum Fees Core Instr InstrProofs Store Borsh PoolStore Pool AdminPool BorshProofs PoolFees PoolFacts PoolExec PoolWorld PoolInv PoolTotalSpec.
Notation hold := pool_holding.

Record even (m0 : Z) (s s' : pstore) : Prop := mkEven {
  ev_tok : forall v, ptoken s v = None <-> ptoken s' v = None;
  ev_sup : forall m, m <> m0 -> recorded m s' = recorded m s;
  ev_sum : forall m K, pool_holders s K -> pool_holders s' K /\ zsum (hold m s') K - recorded m s' = zsum (hold m s) K - recorded m s }.
Lemma even_refl m0 s : even m0 s s.
Proof. split; [reflexivity|reflexivity|auto]. Qed.
Lemma even_trans m0 a b c : even m0 a b -> even m0 b c -> even m0 a c.
Proof.
  intros [A1 A2 A3] [B1 B2 B3]. split; [intros v; rewrite A1; apply B1|intros m N; rewrite B2, A2; auto|].
  intros m K H. destruct (A3 m K H) as [H1 E1]. destruct (B3 m K H1) as [H2 E2]. split; [exact H2|lia].
Qed.
Lemma even_ext m0 s s' : (forall v, match ptoken s v, ptoken s' v with Some a, Some b => t_mint a = t_mint b /\ t_amount a = t_amount b | None, None => True | _, _ => False end) ->
  (forall m, pmint s' m = pmint s m) -> even m0 s s'.
Proof.
  intros T M. assert (R : forall m, recorded m s' = recorded m s) by (intros m; unfold recorded; rewrite M; reflexivity).
  split; [intros v; specialize (T v); destruct (ptoken s v), (ptoken s' v); try contradiction; split; congruence|intros; apply R|].
  intros m K [ND A]. split.
  - split; [exact ND|]. intros v t E. specialize (T v). rewrite E in T. destruct (ptoken s v) eqn:E0; [eauto|contradiction].
  - rewrite R. f_equal. apply zsum_ext. intros v _. specialize (T v). unfold pool_holding. destruct (ptoken s v), (ptoken s' v); try contradiction; [|reflexivity]. destruct T as [-> ->]. reflexivity.
Qed.
Lemma even_get m0 s s' : (forall k, pget s' k = pget s k) -> even m0 s s'.
Proof.
  intros G. apply even_ext; [|intros m; unfold pmint; rewrite G; reflexivity]. intros v. unfold ptoken. rewrite G. destruct (pa_prog (pget s v) =? spl_id); [|exact I]. destruct (pa_data (pget s v)); auto.
Qed.
Lemma even_other m0 s k d : pa_prog (pget s k) <> spl_id -> even m0 s (pset s k d).
Proof. intros N. apply even_ext; [intros v; rewrite other_token by exact N; destruct (ptoken s v); auto|intros m; apply other_mint; exact N]. Qed.

Lemma zsum_plus (f g : Z -> Z) K : zsum (fun v => f v + g v) K = zsum f K + zsum g K.
Proof. induction K as [|x r IH]; cbn [zsum]; lia. Qed.
Lemma zsum_point k q K : NoDup K -> In k K -> zsum (fun v => if k =? v then q else 0) K = q.
Proof.
  induction K as [|x r IH]; intros ND I; [destruct I|]. inversion ND as [|? ? NI NDr]; subst. cbn [zsum]. destruct (Z.eqb_spec k x) as [<-|N].
  - assert (Z0 : forall l, ~ In k l -> zsum (fun v => if k =? v then q else 0) l = 0).
    { induction l as [|y l IHl]; intros NL; [reflexivity|]. cbn [zsum]. destruct (Z.eqb_spec k y) as [->|]; [destruct NL; left; reflexivity|]. rewrite IHl; [lia|]. intros X. apply NL. right. exact X. }
    rewrite Z0 by exact NI. lia.
  - destruct I as [->|I]; [congruence|]. rewrite IH by assumption. lia.
Qed.
Lemma zsum_zero (f : Z -> Z) K : (forall v, f v = 0) -> zsum f K = 0.
Proof. intros F. induction K as [|x r IH]; [reflexivity|]. cbn [zsum]. rewrite F, IH. reflexivity. Qed.
Lemma zsum_net l K : NoDup K -> (forall k q, In (k, q) l -> In k K) -> zsum (net l) K = zsum snd l.
Proof.
  intros ND. induction l as [|[k q] l IH]; intros H; [apply zsum_zero; reflexivity|].
  transitivity (zsum (fun v => (if k =? v then q else 0) + net l v) K); [apply zsum_ext; reflexivity|]. rewrite (zsum_plus (fun v => if k =? v then q else 0)), zsum_point; [|exact ND|eapply H; left; reflexivity].
  rewrite IH by (intros; eapply H; right; eassumption). reflexivity.
Qed.
Lemma net_out l v : (forall k q, In (k, q) l -> k <> v) -> net l v = 0.
Proof. induction l as [|[k q] l IH]; intros H; [reflexivity|]. cbn [net]. rewrite IH by (intros; eapply H; right; eassumption). pose proof (H k q (or_introl eq_refl)). replace (k =? v) with false by lia. lia. Qed.
(** Moves between accounts of one mint, and what the mint says of them. *)
Lemma even_tx s s' l lm m1 : tx_frame s s' l lm -> (forall k q, In (k, q) l -> exists t, ptoken s k = Some t /\ t_mint t = m1) -> (forall m, net lm m = if m =? m1 then zsum snd l else 0) ->
  forall m0, m1 = m0 \/ zsum snd l = 0 -> even m0 s s'.
Proof.
  intros (F & B & S) TK LM m0 M0. assert (R : forall m, recorded m s' = recorded m s + if m =? m1 then zsum snd l else 0) by (intros m; pose proof (S m) as X; unfold supply in X; unfold recorded; rewrite X, LM; reflexivity).
  assert (T : forall v, ptoken s v = None <-> ptoken s' v = None).
  { intros v. split; intros N.
    - destruct (ptoken s' v) as [t'|] eqn:E; [|reflexivity]. destruct (frame_token_back _ _ _ _ F E) as (t & T0 & _). congruence.
    - destruct (ptoken s v) as [t|] eqn:E; [|reflexivity]. destruct (frame_token _ _ _ _ F E) as (t' & T0 & _). congruence. }
  split; [exact T|intros m N; rewrite R; destruct (Z.eqb_spec m m1) as [->|]; [destruct M0; [congruence|lia]|lia]|].
  intros m K [ND A]. split.
  - split; [exact ND|]. intros v t' E. destruct (frame_token_back _ _ _ _ F E) as (t & T0 & _). eauto.
  - rewrite R. assert (H : forall v, hold m s' v = hold m s v + if m =? m1 then net l v else 0).
    { intros v. pose proof (B v) as BV. unfold bal in BV. unfold pool_holding. destruct (ptoken s v) as [t|] eqn:E.
      - destruct (frame_token _ _ _ _ F E) as (t' & E' & MT & _). rewrite E' in *. rewrite MT. destruct (Z.eqb_spec (t_mint t) m) as [<-|N].
        + destruct (Z.eqb_spec (t_mint t) m1) as [E1|N1]; [lia|]. rewrite (net_out l v) in BV; [lia|]. intros k q I ->. destruct (TK _ _ I) as (t2 & E2 & M2). congruence.
        + destruct (Z.eqb_spec m m1) as [->|N1]; [|reflexivity]. rewrite (net_out l v); [reflexivity|]. intros k q I ->. destruct (TK _ _ I) as (t2 & E2 & M2). congruence.
      - rewrite (proj1 (T v) E). destruct (m =? m1); [|reflexivity]. rewrite (net_out l v); [reflexivity|]. intros k q I ->. destruct (TK _ _ I) as (t2 & E2 & M2). congruence. }
    rewrite (zsum_ext (hold m s') (fun v => hold m s v + if m =? m1 then net l v else 0)) by (intros; apply H). rewrite (zsum_plus (hold m s)).
    destruct (m =? m1).
    + change (zsum (fun v => net l v) K) with (zsum (net l) K). rewrite zsum_net; [lia|exact ND|]. intros k q I. destruct (TK _ _ I) as (t & E & _). eapply A. exact E.
    + rewrite (zsum_zero (fun _ => 0)) by reflexivity. lia.
Qed.
Lemma even_transfer m0 s src dst auth signed amt s' : p_transfer s src dst auth signed amt = Ok s' -> even m0 s s'.
Proof.
  intros H. destruct (transfer_ok _ _ _ _ _ _ _ H) as (TX & _ & _ & _ & ts & td & E1 & E2 & M).
  eapply (even_tx s s' _ _ (t_mint ts) TX); [intros k q [[= <- <-]|[[= <- <-]|[]]]; eauto|intros m; cbn [net zsum snd]; destruct (_ =? _); lia|right; cbn [zsum snd]; lia].
Qed.
Lemma even_mint s m dst auth signed amt s' : p_mint_to s m dst auth signed amt = Ok s' -> even m s s'.
Proof.
  intros H. destruct (mint_ok _ _ _ _ _ _ _ H) as (TX & _ & _ & t & E & M).
  eapply (even_tx s s' _ _ m TX); [intros k q [[= <- <-]|[]]; eauto|intros m2; cbn [net zsum snd]; rewrite (Z.eqb_sym m2 m); destruct (_ =? _); lia|left; reflexivity].
Qed.
Lemma even_burn s src m auth signed amt s' : p_burn s src m auth signed amt = Ok s' -> even m s s'.
Proof.
  intros H. destruct (burn_ok _ _ _ _ _ _ _ H) as (TX & _). assert (E : exists t, ptoken s src = Some t /\ t_mint t = m) by (clear TX; unfold p_burn in H; destruct (ptoken s src) as [ts|]; cbn [ok_or rbind] in H; [|discriminate H]; repeat rstep H; exists ts; split; [reflexivity|lia]).
  eapply (even_tx s s' _ _ m TX); [intros k q [[= <- <-]|[]]; exact E|intros m2; cbn [net zsum snd]; rewrite (Z.eqb_sym m2 m); destruct (_ =? _); lia|left; reflexivity].
Qed.
Lemma even_in m0 qs : forall s ua vs who s', basket_in s qs ua vs who = Ok s' -> even m0 s s'.
Proof.
  induction qs as [|q qs IH]; intros s [|u ua] [|v vs] who s' H; cbn [basket_in] in H; try (injection H as <-; apply even_refl).
  apply rbind_ok in H. destruct H as (_ & _ & H). apply rbind_ok in H. destruct H as (s1 & H1 & H). eapply even_trans; [eapply even_transfer; exact H1|eapply IH; exact H].
Qed.
Lemma even_out m0 e qs : forall s ua vs pool nonce auth s', basket_out e s qs ua vs pool nonce auth = Ok s' -> even m0 s s'.
Proof.
  induction qs as [|q qs IH]; intros s [|u ua] [|v vs] pool nonce auth s' H; cbn [basket_out] in H; try (injection H as <-; apply even_refl).
  apply rbind_ok in H. destruct H as (_ & _ & H). apply rbind_ok in H. destruct H as (_ & _ & H). apply rbind_ok in H. destruct H as (s1 & H1 & H). eapply even_trans; [eapply even_transfer; exact H1|eapply IH; exact H].
Qed.
Lemma even_mints e l : forall s cx nonce s', mint_each e s l cx nonce = Ok s' -> even (cx_mint cx) s s'.
Proof.
  induction l as [|[k q] l IH]; intros s cx nonce s' H; cbn [mint_each] in H; [injection H as <-; apply even_refl|]. destruct (0 <? q); [|eapply IH; exact H].
  apply rbind_ok in H. destruct H as (_ & _ & H). apply rbind_ok in H. destruct H as (s1 & H1 & H). eapply even_trans; [eapply even_mint; exact H1|eapply IH; exact H].
Qed.
Lemma even_fees m0 l : forall s pt who s', fee_each s pt l who = Ok s' -> even m0 s s'.
Proof.
  induction l as [|[k q] l IH]; intros s pt who s' H; cbn [fee_each] in H; [injection H as <-; apply even_refl|]. destruct (0 <? q); [|eapply IH; exact H].
  apply rbind_ok in H. destruct H as (s1 & H1 & H). eapply even_trans; [eapply even_transfer; exact H1|eapply IH; exact H].
Qed.
Lemma even_create e P s cx st n s' : process_creation e P s cx st n = Ok s' -> even (cx_mint cx) s s'.
Proof.
  intros H. unfold process_creation in H. apply rbind_ok in H. destruct H as (qs & _ & H). destruct (cx_user cx) as [[[pt ua] who]|] eqn:U; [|discriminate].
  apply rbind_ok in H. destruct H as (s1 & B & H). unfold mint_tokens in H. apply rbind_ok in H. destruct H as (f & _ & H).
  rewrite U in H. destruct (cx_fees cx) as [[[? ?] ?]|]; [|discriminate]. eapply even_trans; [eapply even_in; exact B|eapply even_mints; exact H].
Qed.
Lemma even_redeem e P s cx st n s' : process_redemption e P s cx st n = Ok s' -> even (cx_mint cx) s s'.
Proof.
  intros H. unfold process_redemption in H. apply rbind_ok in H. destruct H as (f & _ & H). apply rbind_ok in H. destruct H as (qs & _ & H).
  apply rbind_ok in H. destruct H as (s1 & B & H). destruct (cx_user cx) as [[[pt ua] who]|] eqn:U; [|discriminate].
  unfold burn_and_fees in B. rewrite U in B. destruct (cx_fees cx) as [[[? ?] ?]|]; [|discriminate]. apply rbind_ok in B. destruct B as (s0 & B0 & B).
  eapply even_trans; [eapply even_fees; exact B0|]. eapply even_trans; [eapply even_burn; exact B|eapply even_out; exact H].
Qed.
Lemma even_lent m0 s v d n s1 : lent s v d n s1 -> even m0 s s1.
Proof.
  intros (t & T & ->). apply ptoken_data in T. destruct T as [T1 T2]. apply even_ext.
  - intros k. unfold ptoken. rewrite pget_pset. destruct (Z.eqb_spec v k) as [<-|]; [cbn [pa_prog pa_data]; rewrite T1, T2, Z.eqb_refl; split; reflexivity|]. destruct (pa_prog (pget s k) =? spl_id); [|exact I]. destruct (pa_data (pget s k)); auto.
  - intros m. unfold pmint. rewrite pget_pset. destruct (Z.eqb_spec v m) as [<-|]; [|reflexivity]. cbn [pa_prog pa_data]. rewrite T1, T2, Z.eqb_refl. reflexivity.
Qed.

Section Pools.
Variables (e : penv) (P : impl).
Hypothesis EOK : penv_ok e.
Hypothesis STD : standard e P.
(** [m0] is the mint of the pool the transaction names first. *)
Theorem entry_even s s' ms b : preach e P s -> honest e ms b -> pool_entry e P s ms b = Ok s' ->
  (forall m0, even m0 s s') \/ exists k st, hd_error (map mk ms) = Some k /\ pool_at e s k st /\ even (ps_mint st) s s'.
Proof.
  intros R HO H. destruct (preach_ok e P EOK STD s R) as [SO PO]. apply effect_of in H; try assumption.
  destruct H as [k st b0 _ _ M0 PK PD BL WF LE PA MI RA _ ->|a d st k n act cx bk WQ PK HD NS NP ACT ->|st c cx n s1 WQ MS PK N CO X1 X2 X3 X4 CR GE|st c cx n s1 WQ MS PK N CO X1 X2 X3 X4 CR GE|WQ FO].
  - left. intros m0. apply even_other. rewrite PK. apply EOK.
  - left. intros m0. apply even_other. exact NS.
  - right. exists (mk (ca_pool c)), st. split; [rewrite MS; reflexivity|]. split; [exact PK|]. rewrite <- X1. eapply even_trans; [eapply even_create; exact CR|apply even_get; exact GE].
  - right. exists (mk (ca_pool c)), st. split; [rewrite MS; reflexivity|]. split; [exact PK|]. rewrite <- X1. eapply even_trans; [eapply even_redeem; exact CR|apply even_get; exact GE].
  - left. intros m0. destruct STD as [EQ|EQ]; rewrite EQ in FO; [discriminate|]. cbn [im_foreign admin_impl] in FO.
    destruct (foreign_ok e EOK _ _ _ _ SO HO FO) as (k & st & q & st' & s1 & _ & [AM AP AW (b0 & D0 & B0 & ->)]).
    destruct AM as (pool & a & r & p & MS & PK & AD & SG & FL & DO). assert (NS : pa_prog (pget s k) <> spl_id) by (destruct AP as [AP _]; rewrite AP; apply EOK).
    assert (G1 : pget s1 k = pget s k) by (eapply does_other; eassumption).
    eapply even_trans; [|apply even_other; rewrite G1; exact NS]. destruct DO; try apply even_refl. eapply even_lent; eassumption.
Qed.
Theorem pool_total s s' ms b : preach e P s -> honest e ms b -> pool_entry e P s ms b = Ok s' ->
  (forall v, ptoken s v = None <-> ptoken s' v = None) /\
  (forall m, recorded m s' <> recorded m s -> exists k st, hd_error (map mk ms) = Some k /\ pool_at e s k st /\ m = ps_mint st) /\
  (forall m K, pool_holders s K -> pool_holders s' K /\ zsum (hold m s') K - recorded m s' = zsum (hold m s) K - recorded m s).
Proof.
  intros R HO H. destruct (entry_even s s' ms b R HO H) as [E|(k & st & HD & PK & E)].
  - split; [apply (E 0)|]. split; [|apply (E 0)]. intros m N. destruct N. apply (ev_sup _ _ _ (E (m + 1))). lia.
  - split; [apply E|]. split; [|apply E]. intros m N. exists k, st. split; [exact HD|]. split; [exact PK|]. destruct (Z.eq_dec m (ps_mint st)) as [Q|Q]; [exact Q|]. destruct N. apply E. exact Q.
Qed.
End Pools.
