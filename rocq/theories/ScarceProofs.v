(** A limited supply implies the guards on the vaults (C24); transactions of several instructions (C85). *)
From Coq Require Import Permutation.
From Verif Require Import Base BaseProofs Fees ListSum Queue Codec Critbit CritbitSlab Market Slots Ledger MatchSpec Core CoreInv Instr InstrProofs
  Store Process StoreProofs Bundle World WorldInv WorldSpec WorldLoad WorldFacts WorldMain WorldAuth WorldRights WorldRent WorldSupply TotalSpec TotalProofs ScarceSpec.

Lemma found_in s k a : sfind s k = Some a -> In (k, a) s.
Proof. induction s as [|[k' a'] r IH]; cbn [sfind]; [discriminate|]. destruct (Z.eqb_spec k' k); [intros [= ->]; left; congruence|right; auto]. Qed.
Lemma sget_split s k : sget s k = no_account \/ In (k, sget s k) s.
Proof. unfold sget. destruct (sfind s k) eqn:E; [right; apply found_in; assumption|left; reflexivity]. Qed.
Lemma holders_exist s : all_holders s (nodup Z.eq_dec (map fst s)).
Proof.
  split; [apply NoDup_nodup|]. intros v t. unfold token_at. destruct (sget_split s v) as [E|E]; [rewrite E; discriminate|]. intros _. apply nodup_In. exact (in_map fst _ _ E).
Qed.
Lemma one_of_sum (f : Z -> Z) l x : (forall y, 0 <= f y) -> In x l -> f x <= zsum f l.
Proof.
  intros F. induction l as [|y r IH]; intros I; [destruct I|]. cbn [zsum]. assert (0 <= zsum f r) by (apply zsum_nonneg; auto). destruct I as [->|I]; [lia|]. pose proof (F y). specialize (IH I). lia.
Qed.

(** The sum does not depend on the list. *)
Lemma zsum_support (f : Z -> Z) l : zsum f l = zsum f (filter (fun x => negb (f x =? 0)) l).
Proof. induction l as [|x r IH]; [reflexivity|]. cbn [filter]. destruct (Z.eqb_spec (f x) 0) as [E|E]; cbn [negb zsum]; lia. Qed.
Lemma holders_same s mint H H2 : all_holders s H -> all_holders s H2 -> zsum (holding mint s) H = zsum (holding mint s) H2.
Proof.
  intros [N A] [N2 A2]. rewrite (zsum_support _ H), (zsum_support _ H2). apply zsum_perm, NoDup_Permutation; [apply NoDup_filter; assumption..|].
  assert (S : forall x, holding mint s x <> 0 -> In x H /\ In x H2).
  { intros x X. unfold holding in X. destruct (token_at s x) as [t|] eqn:E; [|congruence]. eauto. }
  intros x. rewrite !filter_In. destruct (Z.eqb_spec (holding mint s x) 0) as [E|E]; cbn [negb]; [intuition discriminate|]. destruct (S x E). tauto.
Qed.

Section Scarce.
Variable e : env.
Hypothesis EO : env_ok e.
Notation D := (dexd e).
Lemma scarce_modest K s : history e s -> scarce e K s -> modest e K s.
Proof.
  intros HI SC k m HM P. destruct (SC k m HM P) as (S1 & S2 & S3). split; [|split; assumption].
  pose proof (wi_vlt _ _ (reachable_inv e EO s HI)) as V. destruct (wv_coin _ _ V k m HM) as (tc & VC). destruct (wv_pc _ _ V k m HM) as (tp & VP).
  intros v t IV T. pose proof (holders_exist s) as AH.
  assert (MI : t_mint t = m_coin_mint m \/ t_mint t = m_pc_mint m).
  { destruct IV as [->| ->]; [left; rewrite <- (vo_mint _ _ _ _ _ _ _ VC); pose proof (vo_tok _ _ _ _ _ _ _ VC)|right; rewrite <- (vo_mint _ _ _ _ _ _ _ VP); pose proof (vo_tok _ _ _ _ _ _ _ VP)]; congruence. }
  pose proof (S1 _ _ MI AH) as B. assert (N : forall y, 0 <= holding (t_mint t) s y).
  { intros y. unfold holding. destruct (token_at s y) as [ty|] eqn:E; [|lia]. destruct (_ =? _); [|lia]. pose proof (wv_amt _ _ V _ _ E) as U. unfold u64 in U. lia. }
  pose proof (one_of_sum _ _ v N (proj2 AH _ _ T)) as O. unfold holding at 1 in O. rewrite T, Z.eqb_refl in O. lia.
Qed.
Lemma scarce_reach K s : reachable e (scarce e K) s -> reachable e (modest e K) s.
Proof.
  induction 1 as [s G|s c b ms H IH G SZ HB LG|s s' H IH R]; [apply reach_start; exact G| |eapply reach_env; eassumption].
  apply reach_tx; try assumption. apply scarce_modest; [|exact G]. eapply modest_suffices; eassumption.
Qed.
Theorem scarce_suffices K s : reachable e (scarce e K) s -> history e s /\ (scarce e K s -> modest e K s /\ no_overflow e s).
Proof.
  intros H. apply scarce_reach in H. pose proof (modest_suffices e EO K s H) as HI. split; [exact HI|]. intros G. pose proof (scarce_modest K s HI G) as MO.
  split; [exact MO|]. eapply modest_no_overflow; eassumption.
Qed.

(** ** Transactions of several instructions *)
Lemma run_app s l1 l2 s1 : run_all e s l1 = Ok s1 -> run_all e s (l1 ++ l2) = run_all e s1 l2.
Proof.
  revert s. induction l1 as [|c r IH]; intros s H; cbn [run_all app] in *; [congruence|]. apply rbind_ok in H. destruct H as (s2 & E & H). rewrite E. cbn [rbind]. apply IH. exact H.
Qed.
Notation each s l := (fold_left (fun s0 c => transact e (ca_clock c) s0 (ca_bytes c) (ca_metas c)) l s).
Theorem bundle_each s l : bundle e s l = s \/ (exists s', run_all e s l = Ok s') /\ bundle e s l = each s l.
Proof.
  unfold bundle. destruct (run_all e s l) as [s'|?|] eqn:E; [right|left; reflexivity|left; reflexivity]. split; [eauto|].
  revert s E. induction l as [|c r IH]; intros s E; cbn [run_all fold_left] in *; [congruence|]. apply rbind_ok in E. destruct E as (s1 & E1 & E).
  assert (T : transact e (ca_clock c) s (ca_bytes c) (ca_metas c) = s1) by (unfold transact; rewrite E1; reflexivity). rewrite T. exact (IH _ E).
Qed.
Lemma run_each s l s' : run_all e s l = Ok s' -> s' = each s l /\ forall l1 c l2, l = l1 ++ c :: l2 -> exists s1, process_bytes e (ca_clock c) (each s l1) (ca_bytes c) (ca_metas c) = Ok s1.
Proof.
  revert s. induction l as [|c r IH]; intros s E; cbn [run_all fold_left] in *; [split; [congruence|intros [|? ?] ? ? X; discriminate X]|]. apply rbind_ok in E. destruct E as (s1 & E1 & E).
  assert (T : transact e (ca_clock c) s (ca_bytes c) (ca_metas c) = s1) by (unfold transact; rewrite E1; reflexivity). rewrite T. destruct (IH _ E) as [I1 I2]. split; [exact I1|].
  intros l1 c1 l2 X. destruct l1 as [|c0 l1]; cbn [app fold_left] in *; injection X as <- X; [eauto|]. rewrite T. eapply I2. exact X.
Qed.
Lemma each_run s l : (forall l1 c l2, l = l1 ++ c :: l2 -> exists s1, process_bytes e (ca_clock c) (each s l1) (ca_bytes c) (ca_metas c) = Ok s1) -> run_all e s l = Ok (each s l).
Proof.
  revert s. induction l as [|c r IH]; intros s H; cbn [run_all fold_left]; [reflexivity|]. destruct (H [] c r eq_refl) as (s1 & E). cbn [fold_left] in E. rewrite E. cbn [rbind].
  assert (T : transact e (ca_clock c) s (ca_bytes c) (ca_metas c) = s1) by (unfold transact; rewrite E; reflexivity). rewrite T. apply IH.
  intros l1 c1 l2 X. destruct (H (c :: l1) c1 l2) as (s2 & E2); [cbn [app]; congruence|]. cbn [fold_left] in E2. rewrite T in E2. eauto.
Qed.
Theorem bundle_all_or_nothing s l :
  ((forall l1 c l2, l = l1 ++ c :: l2 -> exists s1, process_bytes e (ca_clock c) (each s l1) (ca_bytes c) (ca_metas c) = Ok s1) -> bundle e s l = each s l) /\
  (forall l1 c l2, l = l1 ++ c :: l2 -> (forall s1, process_bytes e (ca_clock c) (each s l1) (ca_bytes c) (ca_metas c) <> Ok s1) -> bundle e s l = s).
Proof.
  unfold bundle. split; [intros H; rewrite (each_run s l H); reflexivity|]. intros l1 c l2 X N. destruct (run_all e s l) as [s'|?|] eqn:E; [|reflexivity|reflexivity].
  destruct (run_each s l s' E) as [_ H]. destruct (H l1 c l2 X) as (s1 & E1). destruct (N s1 E1).
Qed.
Theorem bundle_anytime s l : anytime e s -> anytime e (bundle e s l).
Proof.
  intros AT. destruct (bundle_each s l) as [->|[_ ->]]; [exact AT|]. revert s AT. induction l as [|c r IH]; intros s (s0 & G & LT); cbn [fold_left]; [exists s0; auto|].
  apply IH. exists s0. split; [exact G|]. apply later_tx. exact LT.
Qed.
Lemma sized_step s c b ms s' : sized s -> process_bytes e c s b ms = Ok s' -> sized s'.
Proof.
  intros SZ H x. unfold process_bytes in H. apply rbind_ok in H. destruct H as (i & _ & H). destruct (sizes_kept e _ _ _ _ _ H x) as (-> & _). apply SZ.
Qed.
Theorem bundle_reachable G s l : reachable e G s -> sized s -> Forall (fun c => is_bytes (ca_bytes c) /\ legal e (ca_metas c)) l ->
  (forall l1 c l2 s1, l = l1 ++ c :: l2 -> run_all e s l1 = Ok s1 -> G s1) -> reachable e G (bundle e s l).
Proof.
  intros R SZ F GP. unfold bundle. destruct (run_all e s l) as [s'|?|] eqn:E; [|exact R|exact R].
  revert s R SZ GP E. induction l as [|c r IH]; intros s R SZ GP E; cbn [run_all] in E; [injection E as <-; exact R|]. apply rbind_ok in E. destruct E as (s1 & E1 & E).
  inversion F as [|? ? [F1 F2] F3]; subst. apply (IH F3 s1); [|eapply sized_step; eassumption| |exact E].
  - replace s1 with (transact e (ca_clock c) s (ca_bytes c) (ca_metas c)) by (unfold transact; rewrite E1; reflexivity). apply reach_tx; try assumption. apply (GP [] c r s); reflexivity.
  - intros l1 c1 l2 s2 EQ R2. apply (GP (c :: l1) c1 l2 s2); [rewrite EQ; reflexivity|]. cbn [run_all]. rewrite E1. exact R2.
Qed.
Theorem bundle_total s l : anytime e s -> let s' := bundle e s l in (forall v, token_at s v = None <-> token_at s' v = None) /\
  forall mint K, all_holders s K -> all_holders s' K /\ zsum (holding mint s') K = zsum (holding mint s) K.
Proof.
  intros AT. cbv zeta. destruct (bundle_each s l) as [->|[_ ->]]; [split; [reflexivity|auto]|]. revert s AT. induction l as [|c r IH]; intros s AT; cbn [fold_left]; [split; [reflexivity|auto]|].
  destruct (tokens_total e EO s (ca_clock c) (ca_bytes c) (ca_metas c) AT) as [T1 T2]. cbv zeta in T1, T2.
  assert (AT1 : anytime e (transact e (ca_clock c) s (ca_bytes c) (ca_metas c))) by (destruct AT as (s0 & G & LT); exists s0; split; [exact G|apply later_tx; exact LT]).
  destruct (IH _ AT1) as [I1 I2]. split; [intros v; rewrite T1; apply I1|]. intros mint K A. destruct (T2 mint K A) as [A1 E1]. destruct (I2 mint K A1) as [A2 E2]. split; [exact A2|congruence].
Qed.
End Scarce.
