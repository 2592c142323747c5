(** Rights: signatures, authorities, disabling, closing and replacing, for every state of every history. *)
From Coq Require Import Permutation.
From Verif Require Import Base BaseProofs Fees FeesProofs ListSum Queue QueueProofs Codec CodecProofs Critbit CritbitSlab Market Matching
  MatchSteps MatchSpec MatchFacts Ledger Slots Core CoreInv CoreNew CoreCancel CoreConsume CoreSettle CoreFrame Instr InstrProofs
  Store Process StoreProofs World WorldInv WorldLoad WorldRun WorldStep WorldStep2 WorldConsume WorldInit WorldMain WorldSpec WorldFacts
  WorldFwd WorldCancel WorldPay WorldTrade WorldAuth.

(** ** Flags *)
Lemma flags_any f : check_market_flags f true = Ok tt -> In f [3; 515; 1539; 131; 643; 1667].
Proof.
  unfold check_market_flags. intros H. apply rbind_ok in H. destruct H as (u & _ & H). apply check_ok in H. cbv zeta in H. apply existsb_exists in H. destruct H as (x & I & E). assert (f = x) by lia. subst x. clear E.
  revert I. destruct (has_flag f AF_Permissioned); vm_compute; intros I; intuition auto.
Qed.
Lemma flags_open f : check_market_flags f false = Ok tt -> In f [3; 515; 1539].
Proof.
  unfold check_market_flags. intros H. apply rbind_ok in H. destruct H as (u & _ & H). apply check_ok in H. cbv zeta in H. apply existsb_exists in H. destruct H as (x & I & E). assert (f = x) by lia. subst x. clear E.
  revert I. destruct (has_flag f AF_Permissioned); vm_compute; intros I; intuition auto.
Qed.
Lemma enabled_not m : enabled m -> ~ disabled m.
Proof. unfold enabled, disabled. intros H. apply flags_open in H. cbn [In] in H. destruct H as [<-|[<-|[<-|[]]]]; vm_compute; discriminate. Qed.
Lemma oo_auth_perm m : check_market_flags (m_flags m) true = Ok tt -> permissioned m <-> oo_authority m = Some (m_oo_auth m).
Proof.
  unfold permissioned, oo_authority. intros H. apply flags_any in H. cbn [In] in H. destruct H as [<-|[<-|[<-|[<-|[<-|[<-|[]]]]]]]; vm_compute; split; auto; discriminate.
Qed.
Lemma prune_auth_perm m a : check_market_flags (m_flags m) true = Ok tt -> prune_authority m = Some a -> permissioned m /\ a = m_prune_auth m.
Proof.
  unfold permissioned, prune_authority. intros H. apply flags_any in H. cbn [In] in H. destruct H as [<-|[<-|[<-|[<-|[<-|[<-|[]]]]]]]; vm_compute; try discriminate; intros [= <-]; auto.
Qed.
Lemma crank_auth_some m a : check_market_flags (m_flags m) true = Ok tt -> crank_authority m = Some a -> needs_crank_authority m /\ a = m_crank_auth m.
Proof.
  unfold needs_crank_authority, permissioned, crank_authority. intros H. apply flags_any in H. cbn [In] in H. destruct H as [<-|[<-|[<-|[<-|[<-|[<-|[]]]]]]]; vm_compute; try discriminate; intros [= <-]; auto.
Qed.
Lemma crank_auth_none m : check_market_flags (m_flags m) true = Ok tt -> crank_authority m = None -> ~ needs_crank_authority m.
Proof.
  unfold needs_crank_authority, permissioned, crank_authority. intros H. apply flags_any in H. cbn [In] in H. destruct H as [<-|[<-|[<-|[<-|[<-|[<-|[]]]]]]]; vm_compute; try discriminate; intros _ [? ?]; discriminate.
Qed.

Section Rights.
Variable e : env.
Hypothesis EO : env_ok e.
Notation D := (dexd e).

(** ** The shape of the world in every history whatever *)
Lemma genesis_struct s : genesis e s -> wstruct (D s).
Proof. intros G. exact (wi_str _ _ (winv_genesis e s G)). Qed.
Lemma transact_struct c s b ms : wstruct (D s) -> wstruct (D (transact e c s b ms)).
Proof.
  intros W. unfold transact. destruct (process_bytes e c s b ms) as [s'|?|] eqn:E; [|exact W|exact W]. unfold process_bytes in E. apply rbind_ok in E. destruct E as (i & U & E).
  eapply act_struct; [exact W|eapply process_act; eassumption].
Qed.
Lemma later_struct s s' : wstruct (D s) -> later e s s' -> wstruct (D s').
Proof. intros W H. induction H; [assumption|apply transact_struct; assumption|eapply wstruct_rely; eassumption]. Qed.
Lemma anytime_struct s : anytime e s -> wstruct (D s).
Proof. intros (s0 & G & H). eapply later_struct; [apply genesis_struct; exact G|exact H]. Qed.
Lemma history_anytime s : history e s -> anytime e s.
Proof.
  induction 1 as [s G|s c b ms H IH G SZ HB LG|s s' H IH R].
  - exists s. split; [assumption|apply later_now].
  - destruct IH as (s0 & G0 & L). exists s0. split; [assumption|apply later_tx; assumption].
  - destruct IH as (s0 & G0 & L). exists s0. split; [assumption|eapply later_env; eassumption].
Qed.

(** ** Signatures *)
Theorem owner_only s c i ms s' x oo : anytime e s -> process e c s i ms = Ok s' -> D s x = Some (DOO oo) -> D s' x <> D s x ->
  In x (map mk ms) /\
  (signed_by ms (oo_owner oo) \/
   (exists n m, i = IPrune n /\ D s (oo_market oo) = Some (DMarket m) /\ permissioned m /\ signed_by ms (m_prune_auth m)) \/
   consuming i).
Proof.
  intros AT H HX NE. pose proof (anytime_struct s AT) as W. destruct (process_act e EO c s i ms s' W H).
  - subst. congruence.
  - exfalso. apply NE. rewrite HX. apply H2; [assumption|discriminate].
  - destruct (Z.eq_dec x (m_event_q m)) as [->|N]; [destruct H6 as (? & ? & ? & _); congruence|]. destruct (H7 x N) as [E|(I & _)]; [congruence|].
    split; [assumption|]. right. right. exists n. destruct H0 as [[-> _]|[-> _]]; auto.
  - destruct (Z.eq_dec x x0) as [->|N].
    + split; [assumption|]. left. destruct H3 as [(L1 & _)|(L1 & _)]; [|congruence]. replace oo with oo0 by congruence. assumption.
    + exfalso. apply NE. eapply de_oos; [eassumption|eauto|]. intros a o [= <- <-]. assumption.
  - destruct (Z.eq_dec x x0) as [->|N].
    + split; [assumption|]. right. left. destruct H3 as (L1 & L2 & L3). assert (oo0 = oo) by congruence. subst oo0.
      pose proof (de_mkt _ _ _ _ _ _ _ H1) as HM. destruct (prune_auth_perm m a (ws_flags _ W _ _ HM) H5) as [PM ->]. exists n, m. rewrite L3. auto.
    + exfalso. apply NE. eapply de_oos; [eassumption|eauto|]. intros a0 o [= <- <-]. assumption.
  - exfalso. apply NE. eapply de_oos; [eassumption|eauto|discriminate].
  - exfalso. apply NE. eapply de_oos; [eassumption|eauto|discriminate].
  - exfalso. apply NE. eapply de_oos; [eassumption|eauto|discriminate].
Qed.
Theorem owner_signs s c i ms s' x : anytime e s -> process e c s i ms = Ok s' -> acts_for i ms = Some x ->
  exists oo', D s' x = Some (DOO oo') /\ signed_by ms (oo_owner oo') /\ forall oo, D s x = Some (DOO oo) -> oo_owner oo = oo_owner oo' /\ oo_market oo = oo_market oo'.
Proof.
  intros AT H AF. pose proof (anytime_struct s AT) as W.
  assert (G : forall k m m' x0 oo oo', deed e s s' k m m' (Some (x0, oo')) -> x0 = x -> signed_by ms (oo_owner oo') -> (D s x = Some (DOO oo) \/ D s x = Some DZero) -> oo_owner oo' = oo_owner oo -> oo_market oo' = oo_market oo ->
    exists oo', D s' x = Some (DOO oo') /\ signed_by ms (oo_owner oo') /\ forall oo, D s x = Some (DOO oo) -> oo_owner oo = oo_owner oo' /\ oo_market oo = oo_market oo').
  { intros k m m' x0 oo oo' DE -> SG OR O1 O2. exists oo'. split; [exact (de_at _ _ _ _ _ _ _ DE _ _ eq_refl)|]. split; [assumption|]. intros o HO. destruct OR as [OR|OR]; [|congruence]. assert (o = oo) by congruence. subst o. auto. }
  assert (CA : forall core, proc_cancel e s core ms = Ok s' -> key_at ms 3 = Some x -> (forall o x oo o' oo', core o x oo = Ok (o', oo') -> ob_mkt o' = ob_mkt o /\ same_id oo oo') ->
    exists oo', D s' x = Some (DOO oo') /\ signed_by ms (oo_owner oo') /\ forall oo, D s x = Some (DOO oo) -> oo_owner oo = oo_owner oo' /\ oo_market oo = oo_market oo').
  { intros core HC KX FR. destruct (cancel_deed e EO s core ms s' W HC FR) as (k & x0 & w & m & oo & oo' & K0 & K3 & SG & DE & (L1 & L2 & L3) & OW & (I1 & I2 & I3) & TK).
    assert (EX : x0 = x) by congruence. eapply G; [exact DE|exact EX|rewrite I3, OW; eapply signed_by_at; exact SG|left; rewrite <- EX; exact L1|congruence|congruence]. }
  assert (RE : forall ixs, proc_replace e c s ixs ms = Ok s' -> key_at ms 1 = Some x ->
    exists oo', D s' x = Some (DOO oo') /\ signed_by ms (oo_owner oo') /\ forall oo, D s x = Some (DOO oo) -> oo_owner oo = oo_owner oo' /\ oo_market oo = oo_market oo').
  { intros ixs HC KX. destruct (replace_deed e EO s c ixs ms s' W HC) as (k & x0 & w & m & m' & oo & oo' & K0 & K1 & SG & EN & FE & DE & (L1 & L2 & L3) & OW & (I1 & I2 & I3) & PU).
    assert (EX : x0 = x) by congruence. eapply G; [exact DE|exact EX|rewrite I3, OW; eapply signed_by_at; exact SG|left; rewrite <- EX; exact L1|congruence|congruence]. }
  destruct i; cbn [process acts_for] in *; try discriminate.
  - destruct (settle_deed e EO _ _ _ W H) as (k & x0 & w & m & m' & oo & oo' & K0 & K1 & SG & FE & DE & (L1 & L2 & L3) & OW & (I1 & I2 & I3) & PU).
    assert (EX : x0 = x) by congruence. eapply G; [exact DE|exact EX|rewrite I3, OW; eapply signed_by_at; exact SG|left; rewrite <- EX; exact L1|congruence|congruence].
  - destruct (order_deed e EO _ _ _ _ _ W H) as (k & x0 & w & m & m' & oo & oo' & K0 & K1 & SG & EN & FE & DE & LO & OW & (I1 & I2 & I3) & FO & MO & PU).
    assert (EX : x0 = x) by congruence. eapply G with (oo := oo); [exact DE|exact EX|rewrite I3, OW; eapply signed_by_at; exact SG| |congruence|congruence].
    rewrite <- EX. destruct LO as [(L1 & _)|(L1 & _)]; auto.
  - eapply CA; [exact H|exact AF|]. cbv beta. intros * HH. eapply cancel_v2_frame. exact HH.
  - unfold proc_cancel_cid in H. apply rbind_ok in H. destruct H as (? & _ & H). eapply CA; [exact H|exact AF|]. cbv beta. intros * HH. eapply cancel_cid_frame. exact HH.
  - destruct (close_deed e EO _ _ _ W H) as (k & x0 & w & dest & m & oo & oo' & KM & SG & DE & (L1 & L2 & L3) & OW & CC & _).
    rewrite (key_map _ _ _ KM) in AF. cbn [nth_error] in AF. assert (EX : x0 = x) by congruence.
    assert (EO' : oo_owner oo' = oo_owner oo /\ oo_market oo' = oo_market oo). { unfold close_core in CC; cbv zeta in CC; repeat (apply rbind_ok in CC; destruct CC as (? & _ & CC)); injection CC as <-. split; reflexivity. }
    destruct EO' as [E1 E2]. eapply G; [exact DE|exact EX|rewrite E1, OW; eapply signed_by_at; exact SG|left; rewrite <- EX; exact L1|congruence|congruence].
  - destruct (init_oo_deed e EO _ _ _ _ W H) as (k & x0 & w & m & oo & rest & KM & SG & EN & DE & LO & OW & TK). rewrite (key_map _ _ _ KM) in AF. cbn [nth_error] in AF. assert (EX : x0 = x) by congruence.
    eapply G with (oo := oo); [exact DE|exact EX|rewrite OW; eapply signed_by_at; exact SG| |reflexivity|reflexivity]. rewrite <- EX. destruct LO as [(L1 & _)|(L1 & _)]; eauto.
  - eapply CA; [exact H|exact AF|]. cbv beta. intros * HH. eapply cancel_cids_frame. exact HH.
  - eapply RE; eassumption.
  - eapply RE; eassumption.
Qed.
Theorem one_account s c i ms s' x y ox oy : anytime e s -> process e c s i ms = Ok s' -> ~ consuming i ->
  D s x = Some (DOO ox) -> D s' x <> D s x -> D s y = Some (DOO oy) -> D s' y <> D s y -> x = y.
Proof.
  intros AT H NC HX NX HY NY. pose proof (anytime_struct s AT) as W.
  assert (G : forall k m m' z, deed e s s' k m m' z -> exists a, (x = a /\ y = a)).
  { intros k m m' z DE. destruct z as [[a o]|].
    - exists a. split; match goal with |- ?v = _ => destruct (Z.eq_dec v a); [assumption|] end; exfalso; [apply NX|apply NY]; (eapply de_oos; [exact DE|eauto|intros ? ? [= <- <-]; assumption]).
    - exfalso. apply NX. eapply de_oos; [exact DE|eauto|discriminate]. }
  destruct (process_act e EO c s i ms s' W H); try (match goal with DE : deed _ _ _ _ _ _ _ |- _ => destruct (G _ _ _ _ DE) as (a1 & -> & ->); reflexivity end).
  - subst. congruence.
  - exfalso. apply NX. rewrite HX. apply H2; [assumption|discriminate].
  - exfalso. apply NC. exists n. destruct H0 as [[-> _]|[-> _]]; auto.
Qed.
Theorem opening s c i ms s' x oo : anytime e s -> process e c s i ms = Ok s' -> D s' x = Some (DOO oo) -> (forall o, D s x <> Some (DOO o)) ->
  D s x = Some DZero /\ In x (map mk ms) /\ signed_by ms (oo_owner oo) /\ oo_flags oo = OO_FLAGS /\
  exists m, D s (oo_market oo) = Some (DMarket m) /\ ~ disabled m /\ (permissioned m -> i = IInitOO /\ signed_by ms (m_oo_auth m)).
Proof.
  intros AT H HX NX. pose proof (anytime_struct s AT) as W.
  assert (G : forall k m m' z, deed e s s' k m m' z -> exists o, z = Some (x, o)).
  { intros k m m' z DE. destruct z as [[a o]|].
    - destruct (Z.eq_dec x a) as [->|N]; [eauto|]. exfalso. apply (NX oo). rewrite <- HX. symmetry. eapply de_oos; [exact DE|eauto|intros ? ? [= <- <-]; assumption].
    - exfalso. apply (NX oo). rewrite <- HX. symmetry. eapply de_oos; [exact DE|eauto|discriminate]. }
  destruct (process_act e EO c s i ms s' W H).
  - subst. congruence.
  - exfalso. apply (NX oo). auto.
  - exfalso. destruct (Z.eq_dec x (m_event_q m)) as [->|N]; [destruct H6 as (? & ? & _ & ?); congruence|]. destruct (H7 x N) as [E|(_ & o & ? & (L & _) & _)]; [apply (NX oo); congruence|apply (NX o); assumption].
  - destruct (G _ _ _ _ H0) as (o & [= -> ->]). rename o into oo'. pose proof (de_at _ _ _ _ _ _ _ H0 _ _ eq_refl) as E. assert (oo' = oo) by congruence. subst oo'.
    destruct H3 as [(L1 & _)|(L1 & NO & L2 & L3)]; [exfalso; apply (NX oo0); assumption|]. split; [assumption|]. split; [assumption|]. split; [destruct H5 as [-> _]; assumption|].
    pose proof (de_mkt _ _ _ _ _ _ _ H0) as HM. assert (EM : oo_market oo0 = k) by (rewrite L2; reflexivity).
    split. { destruct H6 as [->|(-> & _)]; [rewrite L2; reflexivity|discriminate]. }
    exists m. destruct H5 as [_ ->]. rewrite EM. split; [assumption|]. split; [apply enabled_not; auto|]. intros PM. apply (oo_auth_perm m (ws_flags _ W _ _ HM)) in PM.
    destruct L3 as [L3|(-> & a & L3 & L4)]; [congruence|]. split; [reflexivity|]. replace (m_oo_auth m) with a by congruence. assumption.
  - destruct (G _ _ _ _ H1) as (o & [= -> ->]). exfalso. apply (NX oo0). apply H3.
  - destruct (G _ _ _ _ H2) as (o & E). discriminate.
  - destruct (G _ _ _ _ H1) as (o & E). discriminate.
  - destruct (G _ _ _ _ H2) as (o & E). discriminate.
Qed.
(** Owner and market of an account never change; only its own market's owner can close it. *)
Theorem account_kept s c i ms s' x oo : anytime e s -> process e c s i ms = Ok s' -> D s x = Some (DOO oo) ->
  exists oo', D s' x = Some (DOO oo') /\ oo_owner oo' = oo_owner oo /\ oo_market oo' = oo_market oo /\
    (oo_flags oo' = oo_flags oo \/ (i = ICloseOO /\ signed_by ms (oo_owner oo) /\ close_core oo = Ok oo')).
Proof.
  intros AT H HX. pose proof (anytime_struct s AT) as W.
  assert (SAME : D s' x = D s x -> exists oo', D s' x = Some (DOO oo') /\ oo_owner oo' = oo_owner oo /\ oo_market oo' = oo_market oo /\
    (oo_flags oo' = oo_flags oo \/ (i = ICloseOO /\ signed_by ms (oo_owner oo) /\ close_core oo = Ok oo'))) by (intros E; exists oo; rewrite E; auto).
  destruct (process_act e EO c s i ms s' W H).
  - subst. auto.
  - apply SAME. rewrite HX. apply H2; [assumption|discriminate].
  - destruct (Z.eq_dec x (m_event_q m)) as [->|N]; [destruct H6 as (? & ? & ? & _); congruence|]. destruct (H7 x N) as [E|(I & o & o' & (L1 & _) & L2 & (I1 & I2 & I3))]; [auto|].
    assert (o = oo) by congruence. subst o. exists o'. auto.
  - destruct (Z.eq_dec x x0) as [->|N].
    + destruct H3 as [(L1 & _)|(L1 & _)]; [|congruence]. assert (oo0 = oo) by congruence. subst oo0. exists oo'. split; [exact (de_at _ _ _ _ _ _ _ H0 _ _ eq_refl)|].
      destruct H5. split; [assumption|]. split; [assumption|]. destruct H6 as [->|(-> & _ & CC)]; auto.
    + apply SAME. eapply de_oos; [eassumption|eauto|]. intros a o [= <- <-]. assumption.
  - destruct (Z.eq_dec x x0) as [->|N].
    + destruct H3 as (L1 & _). assert (oo0 = oo) by congruence. subst oo0. destruct H4 as (I1 & I2 & I3). exists oo'. split; [exact (de_at _ _ _ _ _ _ _ H1 _ _ eq_refl)|]. auto.
    + apply SAME. eapply de_oos; [eassumption|eauto|]. intros a0 o [= <- <-]. assumption.
  - apply SAME. eapply de_oos; [eassumption|eauto|discriminate].
  - apply SAME. eapply de_oos; [eassumption|eauto|discriminate].
  - apply SAME. eapply de_oos; [eassumption|eauto|discriminate].
Qed.
(** A closed account is dead: no instruction changes it. *)
Theorem closed_dead s c i ms s' x oo : anytime e s -> process e c s i ms = Ok s' -> D s x = Some (DOO oo) -> oo_flags oo = AF_Closed -> D s' x = D s x.
Proof.
  intros AT H HX CL. pose proof (anytime_struct s AT) as W.
  destruct (process_act e EO c s i ms s' W H).
  - subst. reflexivity.
  - rewrite HX. apply H2; [assumption|discriminate].
  - destruct (Z.eq_dec x (m_event_q m)) as [->|N]; [destruct H6 as (? & ? & ? & _); congruence|]. destruct (H7 x N) as [E|(I & o & o' & (L1 & L2 & _) & _)]; [auto|].
    assert (o = oo) by congruence. subst o. rewrite CL in L2. discriminate.
  - eapply de_oos; [eassumption|eauto|]. intros a o [= <- <-] ->. destruct H3 as [(L1 & L2 & _)|(L1 & _)]; [|congruence]. assert (oo0 = oo) by congruence. subst oo0. rewrite CL in L2. discriminate.
  - eapply de_oos; [eassumption|eauto|]. intros a0 o [= <- <-] ->. destruct H3 as (L1 & L2 & _). assert (oo0 = oo) by congruence. subst oo0. rewrite CL in L2. discriminate.
  - eapply de_oos; [eassumption|eauto|discriminate].
  - eapply de_oos; [eassumption|eauto|discriminate].
  - eapply de_oos; [eassumption|eauto|discriminate].
Qed.

(** ** Markets *)
Lemma same_but_config m m' : same_but m m' -> same_config m m'.
Proof. unfold same_but, same_config. intros E. do 5 eexists. exact E. Qed.
Lemma same_config_trans a b c : same_config a b -> same_config b c -> same_config a c.
Proof. intros (?&?&?&?&?&->) (cd&pd&pf&rb&fl&->). exists cd, pd, pf, rb, fl. reflexivity. Qed.
Lemma same_config_refl a : same_config a a. Proof. apply same_but_config, same_but_refl. Qed.
Theorem market_kept s c i ms s' k m : anytime e s -> process e c s i ms = Ok s' -> D s k = Some (DMarket m) ->
  exists m', D s' k = Some (DMarket m') /\ same_config m m' /\
    (m_flags m' = m_flags m \/
     (i = IDisableMarket /\ signed_by ms disable_authority /\ ~ disabled m /\ m' = set_flags m (Z.lor (m_flags m) 128))).
Proof.
  intros AT H HK. pose proof (anytime_struct s AT) as W.
  assert (SAME : D s' k = D s k -> exists m', D s' k = Some (DMarket m') /\ same_config m m' /\
    (m_flags m' = m_flags m \/
     (i = IDisableMarket /\ signed_by ms disable_authority /\ ~ disabled m /\ m' = set_flags m (Z.lor (m_flags m) 128)))) by (intros E; exists m; rewrite E; auto using same_config_refl).
  assert (G : forall k0 m0 m1 z, deed e s s' k0 m0 m1 z -> D s' k = D s k \/ (k0 = k /\ m0 = m /\ D s' k = Some (DMarket m1) /\ same_config m m1)).
  { intros k0 m0 m1 z DE. destruct (Z.eq_dec k k0) as [<-|N]; [right|left; eapply de_mkts; eauto]. pose proof (de_mkt _ _ _ _ _ _ _ DE). assert (m0 = m) by congruence. subst m0.
    split; [reflexivity|]. split; [reflexivity|]. split; [exact (de_mkt' _ _ _ _ _ _ _ DE)|]. apply same_but_config. exact (de_same _ _ _ _ _ _ _ DE). }
  destruct (process_act e EO c s i ms s' W H).
  - subst. auto.
  - apply SAME. rewrite HK. apply H2; [assumption|discriminate].
  - destruct (Z.eq_dec k (m_event_q m0)) as [->|N]; [destruct H6 as (? & ? & ? & _); congruence|]. destruct (H7 k N) as [E|(I & o & o' & (L1 & _) & _)]; [auto|congruence].
  - destruct (G _ _ _ _ H0) as [E|(-> & -> & E1 & E2)]; [auto|eauto 6].
  - destruct (G _ _ _ _ H1) as [E|(-> & -> & E1 & E2)]; [auto|eauto 6].
  - destruct (G _ _ _ _ H2) as [E|(-> & -> & E1 & E2)]; [auto|eauto 6].
  - destruct (G _ _ _ _ H1) as [E|(-> & -> & E1 & E2)]; [auto|]. eexists. split; [eassumption|]. split; [assumption|]. right. split; [assumption|]. split; [assumption|]. split; [apply enabled_not; assumption|reflexivity].
  - destruct (G _ _ _ _ H2) as [E|(-> & -> & E1 & E2)]; [auto|]. eexists. split; [eassumption|]. split; [assumption|]. left. reflexivity.
Qed.
Theorem market_forever s k m s' : anytime e s -> D s k = Some (DMarket m) -> later e s s' ->
  exists m', D s' k = Some (DMarket m') /\ same_config m m' /\ (m_flags m' = m_flags m \/ (~ disabled m /\ m_flags m' = Z.lor (m_flags m) 128)).
Proof.
  intros (s0 & G0 & L0) HK H. induction H as [|s1 c b ms H IH|s1 s2 H IH R].
  - exists m. auto using same_config_refl.
  - destruct IH as (m1 & H1 & C1 & F1). unfold transact. destruct (process_bytes e c s1 b ms) as [s2|?|] eqn:E; [|eauto|eauto].
    unfold process_bytes in E. apply rbind_ok in E. destruct E as (i & U & E).
    assert (AT1 : anytime e s1). { exists s0. split; [assumption|]. clear - L0 H. induction H; [assumption|apply later_tx; assumption|eapply later_env; eassumption]. }
    destruct (market_kept _ _ _ _ _ _ _ AT1 E H1) as (m2 & H2 & C2 & F2). exists m2. split; [assumption|]. split; [eapply same_config_trans; eassumption|].
    destruct F2 as [F2|(_ & _ & ND & ->)]; [rewrite F2; assumption|]. destruct F1 as [F1|(ND1 & F1)].
    + right. split; [unfold disabled in *; rewrite <- F1; assumption|]. cbn [m_flags set_flags]. rewrite F1. reflexivity.
    + exfalso. apply ND. unfold disabled. rewrite F1, Z.lor_spec. apply orb_true_r.
  - destruct IH as (m1 & H1 & C1 & F1). exists m1. split; [|auto]. eapply rely_kept; [exact R|exact H1|discriminate|apply nc; discriminate].
Qed.
Theorem stays_disabled s k m s' : anytime e s -> D s k = Some (DMarket m) -> disabled m -> later e s s' -> exists m', D s' k = Some (DMarket m') /\ disabled m'.
Proof.
  intros AT HK DI H. destruct (market_forever _ _ _ _ AT HK H) as (m' & H' & _ & F). exists m'. split; [assumption|]. destruct F as [F|[F _]]; [unfold disabled in *; rewrite F; assumption|contradiction].
Qed.
Theorem no_trading s c i ms k m s' : anytime e s -> D s k = Some (DMarket m) -> disabled m -> opens_position i ms k -> process e c s i ms <> Ok s'.
Proof.
  intros AT HK DI OP H. pose proof (anytime_struct s AT) as W.
  assert (G : forall k0 m0 m1 z, deed e s s' k0 m0 m1 z -> k0 = k -> enabled m0 -> False).
  { intros k0 m0 m1 z DE -> EN. pose proof (de_mkt _ _ _ _ _ _ _ DE). assert (m0 = m) by congruence. subst. eapply enabled_not; eassumption. }
  destruct i; cbn [process opens_position] in *; try contradiction.
  - destruct (order_deed e EO _ _ _ _ _ W H) as (k1 & x & w & m1 & m' & oo & oo' & K0 & K1 & SG & EN & FE & DE & _). eapply G; [exact DE|congruence|assumption].
  - destruct (take_deed e EO _ _ _ _ W H) as (k1 & m1 & m' & K0 & EN & FE & DE & PU). eapply G; [exact DE|congruence|assumption].
  - destruct (init_oo_deed e EO _ _ _ _ W H) as (k1 & x & w & m1 & oo & rest & KM & SG & EN & DE & _). eapply G; [exact DE| |assumption]. rewrite (key_map _ _ _ KM) in OP. cbn [nth_error] in OP. congruence.
  - destruct (replace_deed e EO _ _ _ _ _ W H) as (k1 & x & w & m1 & m' & oo & oo' & K0 & K1 & SG & EN & FE & DE & _). eapply G; [exact DE|congruence|apply EN; discriminate].
  - destruct ixs as [|ix0 ixs]; [contradiction|]. destruct (replace_deed e EO _ _ _ _ _ W H) as (k1 & x & w & m1 & m' & oo & oo' & K0 & K1 & SG & EN & FE & DE & _). eapply G; [exact DE|congruence|apply EN; discriminate].
Qed.

(** ** Authorities *)
Theorem disable_signed s c ms s' : anytime e s -> process e c s IDisableMarket ms = Ok s' ->
  exists k m, key_at ms 0 = Some k /\ signs ms 1 disable_authority /\ D s k = Some (DMarket m) /\ ~ disabled m /\ D s' k = Some (DMarket (set_flags m (Z.lor (m_flags m) 128))) /\ only s s' [k].
Proof.
  intros AT H. pose proof (anytime_struct s AT) as W. cbn [process] in H. destruct (disable_deed e EO _ _ _ W H) as (k & m & K0 & SG & EN & DE & E & _).
  exists k, m. split; [assumption|]. split; [apply sig_signs; assumption|]. split; [exact (de_mkt _ _ _ _ _ _ _ DE)|]. split; [apply enabled_not; assumption|]. split; [exact (de_mkt' _ _ _ _ _ _ _ DE)|].
  subst s'. apply only_put.
Qed.
Theorem sweep_signed s c ms s' : anytime e s -> process e c s ISweepFees ms = Ok s' ->
  exists k m dst p spl, map mk ms = [k; m_pc_vault m; fee_sweeper; dst; p; spl] /\ signs ms 2 fee_sweeper /\ D s k = Some (DMarket m) /\ ~ disabled m /\ e_pda e (m_nonce m) k = Some p /\
    D s' k = Some (DMarket (set_counters m (m_coin_deposits m) (m_pc_deposits m) 0 (m_rebates m))) /\
    moves s s' [(m_pc_vault m, dst, m_pc_fees m)] /\ only s s' [k; m_pc_vault m; dst].
Proof.
  intros AT H. pose proof (anytime_struct s AT) as W. cbn [process] in H. destruct (sweep_ran e s ms s' W H) as (k & m & pw & p & spl & KM & SG & HM & FL & PD & TR).
  destruct (sweep_deed e EO _ _ _ W H) as (k1 & m1 & pw1 & p1 & spl1 & KM1 & _ & _ & DE & _ & T & Q & _). rewrite KM in KM1. injection KM1 as <- _ <- <- <-. pose proof (de_mkt _ _ _ _ _ _ _ DE). assert (m1 = m) by congruence. subst m1.
  exists k, m, pw, p, spl. split; [assumption|]. split; [apply sig_signs; assumption|]. split; [assumption|]. split; [apply enabled_not; exact FL|]. split; [assumption|]. split; [exact (de_mkt' _ _ _ _ _ _ _ DE)|].
  split; [exact (moves_app _ _ _ _ _ (moves_quiet _ _ Q) (moves_transferred e _ _ _ _ _ _ T))|].
  eapply only_trans; [apply only_put|eapply send_only; exact TR| |]; intros y; cbn [In]; tauto.
Qed.
Theorem prune_signed s c n ms s' : anytime e s -> process e c s (IPrune n) ms = Ok s' ->
  exists k m, key_at ms 0 = Some k /\ D s k = Some (DMarket m) /\ permissioned m /\ ~ disabled m /\ signs ms 3 (m_prune_auth m) /\ forall v, token_at s' v = token_at s v.
Proof.
  intros AT H. pose proof (anytime_struct s AT) as W. cbn [process] in H. destruct (prune_deed e EO _ _ _ _ W H) as (k & x & auth & m & oo & oo' & K0 & K4 & SG & PA & EN & DE & LV & SI & TK).
  pose proof (de_mkt _ _ _ _ _ _ _ DE) as HM. destruct (prune_auth_perm m auth (ws_flags _ W _ _ HM) PA) as [PM ->].
  exists k, m. split; [assumption|]. split; [assumption|]. split; [assumption|]. split; [apply enabled_not; assumption|]. split; [apply sig_signs; assumption|assumption].
Qed.
Lemma crank_view s c i ms s' : wstruct (D s) -> process e c s i ms = Ok s' -> consuming i ->
  exists k m, In k (map mk ms) /\ D s k = Some (DMarket m) /\ (needs_crank_authority m -> signed_by ms (m_crank_auth m)) /\ (forall v, token_at s' v = token_at s v) /\
    (exists q q', D s (m_event_q m) = Some (DEventQ q) /\ D s' (m_event_q m) = Some (DEventQ q')) /\
    (forall y, y <> m_event_q m -> D s' y = D s y \/ exists oo oo', live (D s) k y oo /\ D s' y = Some (DOO oo') /\ same_id oo oo').
Proof.
  intros W H (n & CI). destruct CI as [->| ->]; cbn [process] in H; unfold proc_consume, proc_consume_perm in H.
  - destruct (rev ms) as [|z1 [|z2 [|eqa [|mkt [|z3 z4]]]]] eqn:ER; try discriminate. apply rbind_ok in H. destruct H as (m & HM & H). apply rbind_ok in H. destruct H as (u & HC & H).
    apply load_market_ok in HM. destruct HM as [HM _]. apply check_ok in HC. destruct (consume_deed e EO _ _ _ _ _ _ _ W HM H) as (W' & HM' & TK & QQ & V).
    exists (mk mkt), m. split; [eapply in_rev; [exact ER|]; cbn [map In]; auto|]. split; [assumption|]. split; [|split; [assumption|split; [assumption|]]].
    + intros NC. exfalso. revert NC. apply crank_auth_none; [exact (ws_flags _ W _ _ HM)|]. destruct (crank_authority m); [discriminate|reflexivity].
    + intros y N. destruct (V y N) as [E|(_ & E)]; auto.
  - destruct (rev ms) as [|z1 [|eqa [|mkt [|z3 z4]]]] eqn:ER; try discriminate. apply rbind_ok in H. destruct H as (m & HM & H). apply rbind_ok in H. destruct H as (u & HS & H).
    apply rbind_ok in H. destruct H as (u2 & HC & H). unfold check_signer in HS. apply check_ok in HS, HC. apply opt_eqb_eq in HC.
    apply load_market_ok in HM. destruct HM as [HM _]. destruct (consume_deed e EO _ _ _ _ _ _ _ W HM H) as (W' & HM' & TK & QQ & V).
    exists (mk mkt), m. split; [eapply in_rev; [exact ER|]; cbn [map In]; auto|]. split; [assumption|]. split; [|split; [assumption|split; [assumption|]]].
    + intros NC. destruct (crank_auth_some m _ (ws_flags _ W _ _ HM) HC) as [_ <-]. exists z1. split; [apply List.in_rev; rewrite ER; left; reflexivity|auto].
    + intros y N. destruct (V y N) as [E|(_ & E)]; auto.
Qed.
Theorem consume_signed s c i ms s' : anytime e s -> process e c s i ms = Ok s' -> consuming i ->
  exists k m, In k (map mk ms) /\ D s k = Some (DMarket m) /\ (needs_crank_authority m -> signed_by ms (m_crank_auth m)) /\ forall v, token_at s' v = token_at s v.
Proof.
  intros AT H CI. destruct (crank_view s c i ms s' (anytime_struct s AT) H CI) as (k & m & V1 & V2 & V3 & V4 & _). exists k, m. auto.
Qed.
(** ** Tokens *)
Theorem tokens_safe s c i ms s' v t : anytime e s -> process e c s i ms = Ok s' -> token_at s v = Some t ->
  exists t', token_at s' v = Some t' /\ t_mint t' = t_mint t /\ t_owner t' = t_owner t /\ (t_delegate t' = t_delegate t \/ t_delegate t' = None) /\
    (t_amount t' < t_amount t -> signed_by ms (t_owner t) \/ (exists d, t_delegate t = Some d /\ signed_by ms d) \/
       (pays_from_vault i /\ exists k m, key_at ms 0 = Some k /\ D s k = Some (DMarket m) /\ (v = m_coin_vault m \/ v = m_pc_vault m))).
Proof.
  intros AT H HV. pose proof (anytime_struct s AT) as W.
  assert (SAME : (forall v, token_at s' v = token_at s v) -> exists t', token_at s' v = Some t' /\ t_mint t' = t_mint t /\ t_owner t' = t_owner t /\ (t_delegate t' = t_delegate t \/ t_delegate t' = None) /\
    (t_amount t' < t_amount t -> signed_by ms (t_owner t) \/ (exists d, t_delegate t = Some d /\ signed_by ms d) \/
       (pays_from_vault i /\ exists k m, key_at ms 0 = Some k /\ D s k = Some (DMarket m) /\ (v = m_coin_vault m \/ v = m_pc_vault m)))).
  { intros Q. exists t. rewrite Q. split; [assumption|]. split; [reflexivity|]. split; [reflexivity|]. split; [auto|]. lia. }
  assert (G : forall V : Z -> Prop, purse (signed_by ms) V s s' -> (V v -> pays_from_vault i /\ exists k m, key_at ms 0 = Some k /\ D s k = Some (DMarket m) /\ (v = m_coin_vault m \/ v = m_pc_vault m)) ->
    exists t', token_at s' v = Some t' /\ t_mint t' = t_mint t /\ t_owner t' = t_owner t /\ (t_delegate t' = t_delegate t \/ t_delegate t' = None) /\
    (t_amount t' < t_amount t -> signed_by ms (t_owner t) \/ (exists d, t_delegate t = Some d /\ signed_by ms d) \/
       (pays_from_vault i /\ exists k m, key_at ms 0 = Some k /\ D s k = Some (DMarket m) /\ (v = m_coin_vault m \/ v = m_pc_vault m)))).
  { intros V PU HH. destruct (PU v t HV) as (t' & T1 & T2 & T3 & T4 & T5). exists t'. split; [assumption|]. split; [assumption|]. split; [assumption|]. split; [assumption|]. intros LT. destruct (T5 LT) as [A|[A|A]]; auto. }
  destruct (process_act e EO c s i ms s' W H).
  - subst. apply SAME. reflexivity.
  - auto.
  - auto.
  - eapply G; [eassumption|]. cbv beta. intros (P1 & P2 & P3). split; [destruct i; try discriminate; exact I|]. exists k, m. split; [assumption|]. split; [exact (de_mkt _ _ _ _ _ _ _ H0)|assumption].
  - auto.
  - eapply G; [eassumption|]. cbv beta. intros P. subst i. split; [exact I|]. exists k, m. split; [assumption|]. split; [exact (de_mkt _ _ _ _ _ _ _ H2)|assumption].
  - auto.
  - eapply G; [eassumption|]. cbv beta. intros P. subst i. split; [exact I|]. exists k, m. split; [assumption|]. split; [exact (de_mkt _ _ _ _ _ _ _ H2)|auto].
Qed.

(** ** Closing *)
Theorem close_done s c ms s' : anytime e s -> process e c s ICloseOO ms = Ok s' ->
  exists x oo dest k m, map mk ms = [x; oo_owner oo; dest; k] /\ signs ms 1 (oo_owner oo) /\ D s k = Some (DMarket m) /\
    D s x = Some (DOO oo) /\ oo_flags oo = OO_FLAGS /\ oo_market oo = k /\ oo_coin_total oo = 0 /\ oo_pc_total oo = 0 /\ (forall j, 0 <= j < 128 -> is_free oo j = true) /\
    D s' x = Some (DOO (set_oo_flags oo AF_Closed)) /\ a_lamports (sget s' x) = 0 /\ (dest <> x -> a_lamports (sget s' dest) = a_lamports (sget s dest) + a_lamports (sget s x)) /\
    only s s' [x; dest].
Proof.
  intros AT H. pose proof (anytime_struct s AT) as W. cbn [process] in H. destruct (close_deed e EO _ _ _ W H) as (k & x & w & dest & m & oo & oo' & KM & SG & DE & LV & OW & CC & TK & L0 & L1).
  exists x, oo, dest, k, m. rewrite OW. split; [assumption|]. split; [apply sig_signs; assumption|]. split; [exact (de_mkt _ _ _ _ _ _ _ DE)|]. destruct LV as (HX & FX & MX).
  split; [assumption|]. split; [assumption|]. split; [assumption|]. pose proof (de_at _ _ _ _ _ _ _ DE _ _ eq_refl) as HX'.
  unfold close_core in CC. apply rbind_ok in CC. destruct CC as (u1 & C1 & CC). apply rbind_ok in CC. destruct CC as (u2 & C2 & CC). apply rbind_ok in CC. destruct CC as (u3 & C3 & CC). injection CC as <-.
  apply check_ok in C1, C2, C3. split; [lia|]. split; [lia|]. split.
  { intros j J. unfold is_free. replace (oo_free_bits oo) with U128_MAX by lia. change U128_MAX with (Z.ones 128). apply Z.ones_spec_low. lia. }
  split; [assumption|]. split; [assumption|]. split; [assumption|].
  destruct (close_ran e s ms s' W H) as (k1 & x1 & w1 & dest1 & m1 & oo1 & oo1' & sum & KM1 & _ & _ & _ & _ & _ & _ & _ & E). rewrite KM in KM1. injection KM1 as <- _ <- _. subst s'.
  intros y NI. cbn [In] in NI. assert (x <> y /\ dest <> y) as [N1 N2] by (split; intros ->; tauto). rewrite (only_put _ _ _ y) by (cbn [In]; tauto). rewrite !sget_lam. destruct (Z.eqb_spec y x); [congruence|]. destruct (Z.eqb_spec y dest); [congruence|reflexivity].
Qed.
(** A state of a guarded history: what the market holds is known. *)
Section One.
Variables (s : store) (k : Z) (m : market) (A : astate) (L : list (Z * open_orders)).
Hypothesis (WI : winv e s) (SN : seen e s k m A L) (P : usable m).
Let HM : D s k = Some (DMarket m) := sn_mkt _ _ _ _ _ _ SN.
Theorem close_succeeds c x oo dest : In (x, oo) L -> oo_coin_total oo = 0 -> oo_pc_total oo = 0 -> (forall j, 0 <= j < 128 -> is_free oo j = true) ->
  dest <> x -> a_lamports (sget s dest) + a_lamports (sget s x) < B64 ->
  exists s', process e c s ICloseOO [mkMeta x false; mkMeta (oo_owner oo) true; mkMeta dest false; mkMeta k false] = Ok s'.
Proof.
  intros IN CT PT FR ND LM. pose proof (wi_str _ _ WI) as W. destruct (seen_state e s k m A L WI SN P) as (seq & o & MS). pose proof (ms_inv _ _ _ _ _ _ _ MS) as C.
  pose proof (ci_acct _ _ _ _ C _ _ IN) as AO. apply (sn_oos _ _ _ _ _ _ SN) in IN.
  cbn [process proc_close mk mk_signer check_signer check rbind]. unfold check_signer. cbn [mk_signer check rbind]. rewrite (load_market_any e s k m W HM). cbn [rbind].
  rewrite (load_live_fwd e s k m W HM x oo (Some (oo_owner oo)) None None IN ltac:(intros w [= ->]; reflexivity)). cbn [rbind]. unfold close_core.
  assert (FB : oo_free_bits oo = U128_MAX) by (apply all_free; [|assumption]; exact (w_free _ (ao_wf _ _ _ _ _ _ AO))). rewrite FB, CT, PT, !Z.eqb_refl. cbn [check rbind].
  replace (dest =? x) with false by lia. cbn [negb orb check rbind]. unfold cadd. replace (_ <? B64) with true by lia. cbn [rbind]. eauto.
Qed.
Theorem close_clean c ms s' x : process e c s ICloseOO ms = Ok s' -> key_at ms 0 = Some x -> key_at ms 3 = Some k ->
  (forall sd l, In l (book_of A sd) -> l_owner l <> x) /\ (forall v, In v (a_evs A) -> ev_owner v <> x).
Proof.
  intros H K0 K3. pose proof (wi_str _ _ WI) as W. cbn [process] in H. destruct (close_deed e EO _ _ _ W H) as (k1 & x1 & w & dest & m1 & oo & oo' & KM & SG & DE & LV & OW & CC & _).
  rewrite (key_map _ _ _ KM) in K0. rewrite (key_map _ _ _ KM) in K3. cbn [nth_error] in K0, K3. injection K0 as ->. injection K3 as ->.
  destruct (seen_state e s k m A L WI SN P) as (seq & o & MS). pose proof (ms_inv _ _ _ _ _ _ _ MS) as C.
  assert (IN : In (x, oo) L) by (apply (sn_oos _ _ _ _ _ _ SN); exact LV). pose proof (ci_acct _ _ _ _ C _ _ IN) as AO.
  unfold close_core in CC. apply rbind_ok in CC. destruct CC as (u1 & C1 & _). apply check_ok in C1.
  assert (FR : forall i, 0 <= i < 128 -> slot_free x i A).
  { intros i Hi. pose proof (ao_slots _ _ _ _ _ _ AO i Hi) as S. replace (is_free oo i) with true in S; [exact S|]. symmetry. apply all_free; [exact (w_free _ (ao_wf _ _ _ _ _ _ AO))|lia|assumption]. }
  split.
  - intros sd l I EQ. subst x. destruct (ci_own _ _ _ _ C sd l I) as [_ SL]. specialize (FR _ SL). exact (proj1 FR sd l I (conj eq_refl eq_refl)).
  - intros v I EQ. subst x. destruct (ci_evown _ _ _ _ C v I) as [_ SL]. specialize (FR _ SL). pose proof (proj2 FR) as E. unfold slot_events in E. assert (IV : In v []) by (rewrite <- E; apply filter_In; split; [exact I|unfold evb; rewrite !Z.eqb_refl; reflexivity]). destruct IV.
Qed.
End One.

(** ** Replacing *)
Lemma placing_run c ms k x payer w ixs : legal e ms -> key_at ms 0 = Some k -> key_at ms 1 = Some x -> key_at ms 6 = Some payer -> signed ms 7 w -> Forall order_ix_ok ixs ->
  forall s s' m oo, winv e s -> D s k = Some (DMarket m) -> usable m -> live (D s) k x oo -> oo_owner oo = w -> room e s (zlen ixs) -> proc_new_orders e c s ixs ms = Ok s' ->
  placing e k x payer w (key_at ms 12) s ixs s'.
Proof.
  intros LG K0 K1 K6 SG F. induction F as [|ix r IX F IH]; intros s s' m oo WI HM P LV OW RO H; cbn [proc_new_orders] in H; [injection H as <-; apply placing_nil|].
  apply rbind_ok in H. destruct H as (s1 & H1 & H). rewrite zlen_cons, Z.add_comm in RO. destruct (wi_mkt _ _ WI k m HM P) as (seq & L & A & o & MS). pose proof (state_seen e s k m seq L A o HM MS) as SN.
  destruct (order_one e EO s c ix ms s1 (zlen r) WI LG IX RO (zlen_nonneg r) H1) as [WI1 RO1].
  assert (RM1 : room e s 1) by (intros k1 m1 cq sq G1 G2 G3; pose proof (RO _ _ _ _ G1 G2 G3); pose proof (zlen_nonneg r); lia).
  destruct (order_effect e EO s k m A L WI SN P RM1 c ix ms s1 H1 K0 IX) as (x1 & w1 & t & payer1 & oo1 & E1 & SG1 & E6 & OW1 & TF & LO & OD).
  assert (x1 = x) by congruence. subst x1. assert (payer1 = payer) by congruence. subst payer1.
  assert (IN : In (x, oo) L) by (apply (sn_oos _ _ _ _ _ _ SN); exact LV).
  assert (oo1 = oo). { destruct LO as [LO|(LO & _)]; [|destruct LV; congruence]. apply (sn_oos _ _ _ _ _ _ SN) in LO. destruct LO, LV. congruence. } subst oo1.
  assert (EW : w1 = w) by congruence. rewrite EW in *. clear EW w1.
  pose proof OD as (m' & A' & L' & oo' & tr & q' & n & E & slot & id & dep & OD'). cbv zeta in OD'. destruct OD' as (_ & _ & SN' & IL & _ & _ & (F1 & F2 & F3) & _ & _ & _ & MM).
  assert (CF : m_coin_lot m' = m_coin_lot m /\ m_pc_lot m' = m_pc_lot m /\ m_bids m' = m_bids m /\ m_asks m' = m_asks m).
  { destruct (oi_side ix); destruct MM as (_ & _ & _ & _ & ->); repeat split. }
  assert (P' : usable m') by (unfold usable; destruct CF as (-> & -> & -> & ->); exact P).
  eapply placing_cons; [exact SN|exact IN|exact OW|exact TF|exact OD|].
  eapply (IH s1 s' m' oo' WI1 (sn_mkt _ _ _ _ _ _ SN') P'); [|congruence|exact RO1|exact H]. apply (sn_oos _ _ _ _ _ _ SN'). apply IL. auto.
Qed.
Theorem replace_effect s k m A L : winv e s -> no_overflow e s -> seen e s k m A L -> usable m ->
  forall c ixs ms s', legal e ms -> Forall order_ix_ok ixs -> (length ixs <= 8)%nat -> process e c s (IReplaceMany ixs) ms = Ok s' -> key_at ms 0 = Some k ->
  exists x oo payer s1, key_at ms 1 = Some x /\ In (x, oo) L /\ signs ms 7 (oo_owner oo) /\ key_at ms 6 = Some payer /\
    cancels e s s1 k m A L x oo (with_cid x (map oi_cid ixs) (a_bids A)) (with_cid x (map oi_cid ixs) (a_asks A)) /\
    placing e k x payer (oo_owner oo) (key_at ms 12) s1 ixs s'.
Proof.
  intros WI G SN P c ixs ms s' LG F LN H K. cbn [process] in H. unfold proc_replace in H. apply rbind_ok in H. destruct H as (cms & HC & H). unfold unwrap in HC. destruct (nths ms _) as [l|] eqn:EN in HC; [|discriminate]. injection HC as ->.
  pose proof (nths_spec _ _ _ EN) as NS. apply rbind_ok in H. destruct H as (s1 & H1 & H). rewrite firstn_all2 in H1 by (rewrite map_length; lia).
  assert (K0 : key_at cms 0 = Some k) by (unfold key_at; rewrite NS; exact K).
  destruct (cancel_cids_effect e EO s k m A L WI SN P c (map oi_cid ixs) cms s1 H1 K0) as (x & oo & K3 & IN & SG & CE).
  assert (KX : key_at ms 1 = Some x) by (unfold key_at in *; rewrite NS in K3; exact K3). assert (SX : signs ms 7 (oo_owner oo)) by (unfold signs in *; rewrite NS in SG; exact SG).
  assert (KP : exists payer, key_at ms 6 = Some payer).
  { unfold key_at. destruct (nth_error ms 6) as [a|] eqn:E6; [cbn; eauto|]. apply nth_error_None in E6. unfold signs in SX. assert (nth_error ms 7 <> None) as N7 by congruence. apply nth_error_Some in N7. lia. }
  destruct KP as (payer & KP). exists x, oo, payer, s1. split; [assumption|]. split; [assumption|]. split; [assumption|]. split; [assumption|]. split; [exact CE|].
  destruct CE as (A1 & oo1 & WD & SN1 & ON). destruct (cids_one e EO s _ _ s1 WI H1) as [WI1 RO1]. pose proof (wd_slots _ _ _ _ _ _ _ _ WD) as (S1 & S2 & S3 & _).
  pose proof (proj1 (sn_oos _ _ _ _ _ _ SN x oo) IN) as LV.
  eapply (placing_run c ms k x payer (oo_owner oo) ixs LG K KX KP); [eexists; split; [exact SX|split; reflexivity]|exact F|exact WI1|exact (sn_mkt _ _ _ _ _ _ SN1)|exact P| |exact S3| |exact H].
  - apply (sn_oos _ _ _ _ _ _ SN1 x oo1). unfold put_acct. apply in_map_iff. exists (x, oo). cbn [fst]. rewrite Z.eqb_refl. auto.
  - apply RO1. apply guard_room; [assumption|]. unfold zlen. lia.
Qed.
Theorem replace_one_effect s k m A L : winv e s -> no_overflow e s -> seen e s k m A L -> usable m ->
  forall c ix ms s', legal e ms -> order_ix_ok ix -> process e c s (IReplaceOne ix) ms = Ok s' -> key_at ms 0 = Some k ->
  exists x oo payer s1, key_at ms 1 = Some x /\ In (x, oo) L /\ signs ms 7 (oo_owner oo) /\ key_at ms 6 = Some payer /\
    cancels e s s1 k m A L x oo (with_cid x [oi_cid ix] (a_bids A)) (with_cid x [oi_cid ix] (a_asks A)) /\
    placing e k x payer (oo_owner oo) (key_at ms 12) s1 [ix] s'.
Proof.
  intros WI G SN P c ix ms s' LG IX H K. apply (replace_effect s k m A L WI G SN P c [ix] ms s' LG); [constructor; [exact IX|constructor]|cbn; lia|exact H|exact K].
Qed.
(** ** Fees leave only by sweeping *)
Lemma fee_share pl t tr : zsum (tr_fifth pl t) tr <= zsum (tr_fee pl t) tr.
Proof.
  induction tr as [|r tr IH]; [reflexivity|]. cbn [zsum]. unfold tr_fifth at 1. assert (0 <= tr_fee pl t r) by (unfold tr_fee; destruct (self t r); [lia|apply taker_fee_nonneg]). lia.
Qed.
Lemma placing_fees k x payer w d s ixs s' : placing e k x payer w d s ixs s' -> forall m, D s k = Some (DMarket m) -> exists m', D s' k = Some (DMarket m') /\ m_pc_fees m <= m_pc_fees m'.
Proof.
  induction 1 as [s|s s1 s' m A L oo t ix r SN IN OW TF OD PL IH]; intros m0 HM0; [exists m0; split; [assumption|lia]|].
  pose proof (sn_mkt _ _ _ _ _ _ SN). assert (m0 = m) by congruence. subst m0.
  destruct OD as (m' & A' & L' & oo' & tr & q' & n & E & slot & id & dep & OD'). cbv zeta in OD'. destruct OD' as (_ & _ & SN' & _ & _ & _ & _ & _ & _ & _ & MM).
  destruct (IH m' (sn_mkt _ _ _ _ _ _ SN')) as (m2 & H2 & LE). exists m2. split; [assumption|].
  pose proof (fee_share (m_pc_lot m) (mkTaker (oi_side ix) id x slot t (oi_cid ix) (oi_st ix) false) tr). destruct (oi_side ix); destruct MM as (_ & _ & _ & _ & ->); cbn [m_pc_fees set_counters] in LE; lia.
Qed.
Theorem fees_kept s c i ms s' k m : history e s -> no_overflow e s -> legal e ms -> wf_instr i -> process e c s i ms = Ok s' -> i <> ISweepFees ->
  D s k = Some (DMarket m) -> usable m -> exists m', D s' k = Some (DMarket m') /\ m_pc_fees m <= m_pc_fees m'.
Proof.
  intros HI G LG WF H NS HK P. pose proof (reachable_inv e EO s HI) as WI. pose proof (wi_str _ _ WI) as W. destruct (market_seen e EO s k m HI HK P) as (A & L & SN).
  assert (SAME : D s' k = D s k -> exists m', D s' k = Some (DMarket m') /\ m_pc_fees m <= m_pc_fees m') by (intros E; exists m; rewrite E; split; [assumption|lia]).
  assert (GG : forall k0 m0 m1 z, deed e s s' k0 m0 m1 z -> (k0 = k -> m0 = m -> D s' k = Some (DMarket m1) -> exists m', D s' k = Some (DMarket m') /\ m_pc_fees m <= m_pc_fees m') ->
    exists m', D s' k = Some (DMarket m') /\ m_pc_fees m <= m_pc_fees m').
  { intros k0 m0 m1 z DE F. destruct (Z.eq_dec k k0) as [<-|N]; [|apply SAME; eapply de_mkts; eauto]. pose proof (de_mkt _ _ _ _ _ _ _ DE). assert (m0 = m) by congruence. subst m0.
    apply F; [reflexivity|reflexivity|exact (de_mkt' _ _ _ _ _ _ _ DE)]. }
  assert (GS : forall k0 m0 z, deed e s s' k0 m0 m0 z -> exists m', D s' k = Some (DMarket m') /\ m_pc_fees m <= m_pc_fees m').
  { intros k0 m0 z DE. eapply GG; [exact DE|]. intros -> -> E. exists m. split; [exact E|lia]. }
  assert (CR : consuming i -> exists m', D s' k = Some (DMarket m') /\ m_pc_fees m <= m_pc_fees m').
  { intros CI. destruct (crank_view s c i ms s' W H CI) as (k1 & m1 & V1 & V2 & V3 & V4 & V5 & V6). apply SAME.
    destruct (Z.eq_dec k (m_event_q m1)) as [->|N]; [destruct V5 as (? & ? & ? & _); congruence|]. destruct (V6 k N) as [E|(o & o' & (L1 & _) & _)]; [auto|congruence]. }
  assert (CA : forall core, proc_cancel e s core ms = Ok s' -> (forall o x oo o' oo', core o x oo = Ok (o', oo') -> ob_mkt o' = ob_mkt o /\ same_id oo oo') -> exists m', D s' k = Some (DMarket m') /\ m_pc_fees m <= m_pc_fees m').
  { intros core HC FR. destruct (cancel_deed e EO s core ms s' W HC FR) as (k0 & x & w & m0 & oo & oo' & _ & _ & _ & DE & _). eapply GS; exact DE. }
  assert (RP : forall ixs, proc_replace e c s ixs ms = Ok s' -> Forall order_ix_ok ixs -> (length ixs <= 8)%nat -> exists m', D s' k = Some (DMarket m') /\ m_pc_fees m <= m_pc_fees m').
  { intros ixs HR FO LN. destruct (replace_deed e EO s c ixs ms s' W HR) as (k0 & x & w & m0 & m' & oo & oo' & K0 & _ & _ & _ & _ & DE & _). eapply GG; [exact DE|]. intros -> -> E.
    destruct (replace_effect s k m A L WI G SN P c ixs ms s' LG FO LN HR K0) as (x1 & oo1 & payer & s1 & _ & _ & _ & _ & (A1 & oo2 & _ & SN1 & _) & PL).
    exact (placing_fees _ _ _ _ _ _ _ _ PL m (sn_mkt _ _ _ _ _ _ SN1)). }
  destruct i; cbn [process] in H; try discriminate; try (apply CR; eexists; eauto; fail).
  - destruct (init_ran e _ _ _ _ _ H) as (k1 & rqa & eqa & ba & aa & cv & pv & cm & pm & p & auths & R). apply SAME. rewrite HK. eapply in_kept; [exact EO|exact R|exact HK|discriminate].
  - injection H as <-. auto.
  - destruct (settle_deed e EO _ _ _ W H) as (k0 & x & w & m0 & m' & oo & oo' & K0 & _ & _ & _ & DE & _). eapply GG; [exact DE|]. intros -> -> E.
    destruct (settle_effect e EO s k m A L WI SN P c ms s' H K0) as (x1 & oo1 & cw & pw & _ & IN & _ & _ & _ & (m2 & oo2 & SN2 & E2 & _)). exists m2. split; [exact (sn_mkt _ _ _ _ _ _ SN2)|]. rewrite E2. cbn [m_pc_fees set_counters].
    destruct (seen_state e s k m A L WI SN P) as (seq & o & MS). pose proof (ao_reb _ _ _ _ _ _ (ci_acct _ _ _ _ (ms_inv _ _ _ _ _ _ _ MS) _ _ IN)) as [? _]. destruct (key_at ms 9); lia.
  - destruct (disable_deed e EO _ _ _ W H) as (k0 & m0 & _ & _ & _ & DE & _). eapply GG; [exact DE|]. intros -> -> E. eexists. split; [exact E|]. cbn [m_pc_fees set_flags]. lia.
  - congruence.
  - destruct (order_deed e EO _ _ _ _ _ W H) as (k0 & x & w & m0 & m' & oo & oo' & K0 & _ & _ & _ & _ & DE & _). eapply GG; [exact DE|]. intros -> -> E.
    destruct (order_effect e EO s k m A L WI SN P (guard_room e s 1 G ltac:(lia)) c ix ms s' H K0 (wf_order _ WF)) as (x1 & w1 & t & payer & oo1 & _ & _ & _ & _ & _ & _ & OD).
    destruct OD as (m2 & A' & L' & oo2 & tr & q' & n & EV & slot & id & dep & OD'). cbv zeta in OD'. destruct OD' as (_ & _ & SN' & _ & _ & _ & _ & _ & _ & _ & MM). exists m2. split; [exact (sn_mkt _ _ _ _ _ _ SN')|].
    pose proof (fee_share (m_pc_lot m) (mkTaker (oi_side ix) id x1 slot t (oi_cid ix) (oi_st ix) false) tr). destruct (oi_side ix); destruct MM as (_ & _ & _ & _ & ->); cbn [m_pc_fees set_counters]; lia.
  - eapply CA; [exact H|]. cbv beta. intros * HH. eapply cancel_v2_frame. exact HH.
  - unfold proc_cancel_cid in H. apply rbind_ok in H. destruct H as (? & _ & H). eapply CA; [exact H|]. cbv beta. intros * HH. eapply cancel_cid_frame. exact HH.
  - destruct (take_deed e EO _ _ _ _ W H) as (k0 & m0 & m' & K0 & _ & _ & DE & _). eapply GG; [exact DE|]. intros -> -> E.
    destruct (take_effect e EO s k m A L WI SN P (guard_room e s 1 G ltac:(lia)) c ix ms s' H K0 (wf_take_ok _ WF)) as (w1 & t & cw & pw & _ & _ & _ & _ & TD).
    destruct TD as (m2 & A' & tr & q' & gs & id & OD'). cbv zeta in OD'. destruct OD' as (_ & SN' & _ & _ & _ & _ & _ & _ & _ & _ & MM). exists m2. split; [exact (sn_mkt _ _ _ _ _ _ SN')|].
    pose proof (fee_share (m_pc_lot m) (mkTaker (ti_side ix) id 0 0 t 0 AbortTransaction true) tr). destruct (ti_side ix); [destruct MM as (_ & _ & _ & ->)|destruct MM as (_ & _ & ->)]; cbn [m_pc_fees set_counters]; lia.
  - destruct (close_deed e EO _ _ _ W H) as (k0 & x & w & dest & m0 & oo & oo' & _ & _ & DE & _). eapply GS; exact DE.
  - destruct (init_oo_deed e EO _ _ _ _ W H) as (k0 & x & w & m0 & oo & rest & _ & _ & _ & DE & _). eapply GS; exact DE.
  - destruct (prune_deed e EO _ _ _ _ W H) as (k0 & x & auth & m0 & oo & oo' & _ & _ & _ & _ & _ & DE & _). eapply GS; exact DE.
  - eapply CA; [exact H|]. cbv beta. intros * HH. eapply cancel_cids_frame. exact HH.
  - apply (RP [ix] H); [constructor; [exact (wf_order _ WF)|constructor]|cbn; lia].
  - destruct WF as [LN F]. apply (RP ixs H); [|lia]. eapply Forall_impl; [|exact F]. intros a. apply wf_order.
Qed.
End Rights.
