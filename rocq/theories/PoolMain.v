(** The facts about pools in the form the properties state them. *)
From Verif Require Import Base BaseProofs Fees Core Instr InstrProofs Store Borsh PoolStore Pool AdminPool BorshProofs PoolFees PoolFacts PoolExec PoolWorld PoolInv PoolBack.

Section Main.
Variables (e : penv) (P : impl).
Hypothesis EOK : penv_ok e.
Hypothesis STD : standard e P.

Lemma creation_effect s s' ms n : preach e P s -> u64 n -> honest e ms (put_request (RExecute (Create n))) -> pool_entry e P s ms (put_request (RExecute (Create n))) = Ok s' ->
  exists st c, ms = call_metas c /\ pool_at e s (mk (ca_pool c)) st /\ call_ok s st c /\ 0 < supply s (ps_mint st) /\
    (forall k, bal s' k = bal s k + net (create_moves s st c n) k) /\
    (forall m, supply s' m = supply s m + if ps_mint st =? m then n else 0) /\
    (ps_assets st <> [] -> mk_signer (ca_who c) = true) /\ (forall u, In u (map mk (ca_user c)) -> can_spend s u (mk (ca_who c))).
Proof.
  intros RE N HO H. apply (preach_ok e P EOK STD) in RE. destruct RE as [SO PO]. apply (effect_of e P STD) in H; try assumption.
  assert (W : whole (get_request e) (put_request (RExecute (Create n))) = Some (RExecute (Create n))) by (apply (proj1 (whole_ok _ _ _ (request_ok e))); exact N).
  destruct H as [k st b0 (q & Q) _|a d st k n' act cx bk Q _|st c cx n' s1 Q MS PK N' CO X1 X2 X3 X4 CR GE|st c cx n' s1 Q|Q _]; rewrite W in Q; try discriminate.
  injection Q as <-. apply (create_ok e P STD s cx st n s1 c) in CR; try assumption; [|apply SO]. destruct CR as (SP & R0 & (F & B & M) & CS & SGN & PN).
  exists st, c. repeat (split; [assumption|]). split; [intros k; rewrite (get_bal s1 s') by auto; apply B|]. split; [|auto].
  intros m. rewrite (get_supply s1 s') by auto. rewrite M. cbn [net]. lia.
Qed.
Lemma redemption_effect s s' ms n : preach e P s -> u64 n -> honest e ms (put_request (RExecute (Redeem n))) -> pool_entry e P s ms (put_request (RExecute (Redeem n))) = Ok s' ->
  exists st c, ms = call_metas c /\ pool_at e s (mk (ca_pool c)) st /\ call_ok s st c /\ 0 < supply s (ps_mint st) /\
    (forall k, bal s' k = bal s k + net (redeem_moves s st c n) k) /\
    (forall m, supply s' m = supply s m - if ps_mint st =? m then n - fee_sum (pool_fee st c n) else 0) /\
    mk_signer (ca_who c) = true /\ can_spend s (mk (ca_pt c)) (mk (ca_who c)).
Proof.
  intros RE N HO H. apply (preach_ok e P EOK STD) in RE. destruct RE as [SO PO]. apply (effect_of e P STD) in H; try assumption.
  assert (W : whole (get_request e) (put_request (RExecute (Redeem n))) = Some (RExecute (Redeem n))) by (apply (proj1 (whole_ok _ _ _ (request_ok e))); exact N).
  destruct H as [k st b0 (q & Q) _|a d st k n' act cx bk Q _|st c cx n' s1 Q|st c cx n' s1 Q MS PK N' CO X1 X2 X3 X4 CR GE|Q _]; rewrite W in Q; try discriminate.
  injection Q as <-. apply (redeem_ok e P STD s cx st n s1 c) in CR; try assumption; [|apply SO]. cbv zeta in CR. destruct CR as (SP & R0 & MB & MS1 & (F & B & M) & CS & SGN & PN).
  exists st, c. repeat (split; [assumption|]). split; [intros k; rewrite (get_bal s1 s') by auto; apply B|]. split; [|auto].
  intros m. rewrite (get_supply s1 s') by auto. rewrite M. cbn [net]. destruct (ps_mint st =? m); lia.
Qed.

Lemma no_free_assets st s s' v : no_worse st s s' -> 0 < supply s (ps_mint st) <= supply s' (ps_mint st) -> In v (vaults st) -> 0 <= bal s v -> bal s v <= bal s' v.
Proof. intros [W _] S V B. specialize (W v V). apply (Z.mul_le_mono_pos_r _ _ (supply s (ps_mint st))); [lia|]. nia. Qed.

(** Deciding whether the administrator signs. *)
Lemma admin_signs st ms : no_admin st ms \/ exists m, In m ms /\ mk_signer m = true /\ ps_admin st = Some (mk m).
Proof.
  induction ms as [|m ms IH]; [left; intros ? []|]. destruct (mk_signer m) eqn:S; [destruct (opt_eqb (ps_admin st) (Some (mk m))) eqn:A|].
  - right. exists m. apply opt_eqb_true in A. split; [left; reflexivity|auto].
  - destruct IH as [IH|(x & X & Y)]; [left|right; exists x; split; [right; assumption|assumption]]. intros x [<-|X] Y; [|auto]. intros Q. apply opt_eqb_true in Q. congruence.
  - destruct IH as [IH|(x & X & Y)]; [left|right; exists x; split; [right; assumption|assumption]]. intros x [<-|X] Y; [congruence|auto].
Qed.
End Main.

Section Admin.
Variable e : penv.
Hypothesis EOK : penv_ok e.
Let P := admin_impl e.
Lemma STDA : standard e P. Proof. right. reflexivity. Qed.
Lemma only_admin s s' ms b k st : preach e P s -> honest e ms b -> pool_entry e P s ms b = Ok s' -> pool_at e s k st ->
  pool_at e s' k st \/ exists m, In m ms /\ mk_signer m = true /\ ps_admin st = Some (mk m).
Proof.
  intros RE HO H PK. apply (preach_ok e P EOK STDA) in RE. destruct (admin_signs st ms) as [NA|A]; [left; eapply (state_tx e P EOK STDA); eassumption|right; assumption].
Qed.
Lemma basket_refused s cx st n up : flag_is st true -> admin_basket up s cx st n = Err EInvalidArgument.
Proof. intros F. unfold admin_basket. rewrite (flag_read _ _ F). reflexivity. Qed.
Lemma paused_blocks s s' ms b k st a : preach e P s -> honest e ms b -> pool_at e s k st -> flag_is st true -> hd_error (map mk ms) = Some k ->
  whole (get_request e) b = Some (RExecute a) \/ whole (get_request e) b = Some (RGetBasket a) -> pool_entry e P s ms b <> Ok s'.
Proof.
  intros RE HO PK FL HD RQ H. apply (preach_ok e P EOK STDA) in RE. destruct RE as [SO PO]. apply (effect_of e P STDA) in H; try assumption.
  destruct H as [k0 st0 b0 (q & Q) _|a0 d st0 k0 n act cx bk Q PK0 HD0 NS NP ACT _|st0 c cx n s1 Q MS PK0 N CO X1 X2 X3 X4 CR GE|st0 c cx n s1 Q MS PK0 N CO X1 X2 X3 X4 CR GE|Q _].
  - destruct RQ; congruence.
  - assert (k0 = k) as -> by congruence. assert (st0 = st) as -> by (eapply pool_at_fun; eassumption).
    destruct ACT as [[_ A]|[_ A]]; cbn [P admin_impl im_create im_redeem] in A; rewrite basket_refused in A by assumption; discriminate.
  - assert (mk (ca_pool c) = k) by (subst ms; cbn in HD; congruence). subst k. assert (st0 = st) as -> by (eapply pool_at_fun; eassumption).
    unfold process_creation in CR. cbn [P admin_impl im_create] in CR. rewrite basket_refused in CR by assumption. discriminate.
  - assert (mk (ca_pool c) = k) by (subst ms; cbn in HD; congruence). subst k. assert (st0 = st) as -> by (eapply pool_at_fun; eassumption).
    unfold process_redemption in CR. apply rbind_ok in CR. destruct CR as (f & _ & CR). cbn [P admin_impl im_redeem] in CR. rewrite basket_refused in CR by assumption. discriminate.
  - destruct RQ; congruence.
Qed.
Lemma admin_request_effect s s' ms b : preach e P s -> honest e ms b -> whole (get_request e) b = None -> pool_entry e P s ms b = Ok s' ->
  exists k st q st' s1, whole get_admin b = Some q /\ admin_tx e s s' ms k st q st' s1 /\ pool_at e s' k st'.
Proof.
  intros RE HO W H. apply (preach_ok e P EOK STDA) in RE. destruct RE as [SO PO]. apply (effect_of e P STDA) in H; try assumption.
  destruct H as [k0 st0 b0 (q & Q) _|a0 d st0 k0 n act cx bk Q|st0 c cx n s1 Q|st0 c cx n s1 Q|_ FO]; try congruence.
  cbn [P im_foreign admin_impl] in FO. apply (foreign_ok e EOK _ _ _ _ SO HO) in FO. destruct FO as (k & st & q & st' & s1 & Q & AT). exists k, st, q, st', s1. split; [assumption|]. split; [assumption|].
  destruct AT as [AM AP AW (b0 & D0 & B0 & ->)]. destruct AM as (pool & a & r & p & MS & PK0 & AD & SGA & FL & DO).
  assert (PR : pa_prog (pget s k) = pe_prog e) by apply AP. assert (NS : pa_prog (pget s k) <> spl_id) by (rewrite PR; apply EOK).
  apply pool_saved; try assumption. rewrite (does_other _ _ _ _ _ _ _ _ _ DO NS). assumption.
Qed.
Lemma unpausing s s' ms b k st st' : preach e P s -> honest e ms b -> pool_entry e P s ms b = Ok s' -> pool_at e s k st -> flag_is st true -> pool_at e s' k st' -> flag_is st' false ->
  whole get_admin b = Some AUnpause /\ (exists m, In m ms /\ mk_signer m = true /\ ps_admin st = Some (mk m)) /\ (forall v, In v (vaults st) -> vault_free s v).
Proof.
  intros RE HO H PK FL PK' FL'. pose proof RE as RE'. apply (preach_ok e P EOK STDA) in RE'. destruct RE' as [SO PO].
  assert (NE : st' <> st). { intros ->. unfold flag_is in *. rewrite FL in FL'. discriminate. }
  destruct (admin_signs st ms) as [NA|A]. { exfalso. apply NE. eapply pool_at_fun; [eassumption|]. eapply (state_tx e P EOK STDA); try eassumption. split; assumption. }
  destruct (whole (get_request e) b) as [rq|] eqn:W.
  { exfalso. apply NE. eapply pool_at_fun; [eassumption|]. apply (effect_of e P STDA) in H; try assumption.
    destruct H as [k0 st0 b0 _ _ M0 PK0 PD BL WF LE PA MI RA _ ->|a d st0 k0 n act cx bk WQ PK0 HD NS NP ACT ->|st0 c cx n s1 WQ MS PK0 N CO X1 X2 X3 X4 CR GE|st0 c cx n s1 WQ MS PK0 N CO X1 X2 X3 X4 CR GE|WQ FO]; [| | | |congruence].
    - apply pool_other; [|assumption]. intros ->. destruct PK as (_ & b1 & r & D & B & G). apply (state_not_blank e b1 st r G). congruence.
    - apply pool_other; [|assumption]. intros ->. apply NP. apply PK.
    - apply (create_ok e P STDA s cx st0 n s1 c) in CR; try assumption; [|apply SO]. destruct CR as (_ & _ & (F & _) & _). eapply frame_pool; [eapply frame_get; eassumption|assumption].
    - apply (redeem_ok e P STDA s cx st0 n s1 c) in CR; try assumption; [|apply SO]. cbv zeta in CR. destruct CR as (_ & _ & _ & _ & (F & _) & _). eapply frame_pool; [eapply frame_get; eassumption|assumption]. }
  pose proof (admin_request_effect s s' ms b RE HO W H) as (k0 & st0 & q & st0' & s1 & Q & AT & PK0').
  destruct AT as [AM AP AW (b0 & D0 & B0 & S0)]. destruct AM as (pool & a & r & p & MS & PK0 & AD & SGA & FL0 & DO).
  destruct (Z.eq_dec k0 k) as [->|NK].
  - assert (st0 = st) as -> by (eapply pool_at_fun; eassumption). assert (st0' = st') as -> by (eapply pool_at_fun; eassumption).
    assert (p = true) as -> by (unfold flag_is in *; destruct p; [reflexivity|rewrite FL in FL0; discriminate]).
    destruct DO; try (exfalso; unfold flag_is in FL'; cbn [write_paused ps_custom] in FL'; discriminate FL').
    split; [assumption|]. split; [assumption|]. intros v V. unfold vaults in V. apply in_map_iff in V. destruct V as (x & <- & X). match goal with F : Forall _ (ps_assets st) |- _ => rewrite Forall_forall in F; exact (F x X) end.
  - exfalso. apply NE. eapply pool_at_fun; [eassumption|]. rewrite S0. apply pool_other; [assumption|]. unfold pool_at in *. rewrite (does_other _ _ _ _ _ _ _ _ k DO); [assumption|]. destruct PK as [-> _]. apply EOK.
Qed.
End Admin.
