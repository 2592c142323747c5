(** InitializeMarket keeps the invariant of the world. *)
From Coq Require Import Permutation.
From Verif Require Import Base BaseProofs Fees ListSum Queue QueueProofs Codec CodecProofs Critbit CritbitSlab Market Matching
  MatchSteps MatchRefine MatchAsk MatchBid MatchRun MatchSpec Ledger LedgerSteps LedgerRun MatchReport MatchOrder MatchFacts Slots Core CoreInv CoreNew CoreCancel CoreConsume CoreSettle CoreFrame Instr InstrProofs
  Store Process StoreProofs World WorldInv WorldLoad WorldRun.

Section Init.
Variable e : env.
Hypothesis EO : env_ok e.
Notation D := (dexd e).
Let NS : e_prog e <> spl_id := eo_spl e EO.

Definition blank_queue (len : Z) : queue event := mkQueue 0 0 0 (repeat blank_event (Z.to_nat (event_slots len))).
Definition blank_book (len : Z) : slab := slab_new (Z.to_nat (slab_slots len)).
Definition market_flags (auths : list Z) : Z :=
  match auths with
  | [] => Z.lor AF_Initialized AF_Market
  | [_] | [_; _] => Z.lor (Z.lor AF_Initialized AF_Market) AF_Permissioned
  | _ => Z.lor (Z.lor (Z.lor AF_Initialized AF_Market) AF_Permissioned) AF_CrankAuth end.
Definition new_market (ix : init_ix) (k rqa eqa ba aa cv pv cm pm : Z) (auths : list Z) : market :=
  mkMarket (market_flags auths) k (ii_nonce ix) cm pm cv 0 0 pv 0 0 (ii_dust ix) rqa eqa ba aa
    (ii_coin_lot ix) (ii_pc_lot ix) (ii_fee_rate ix) 0 (nth 0%nat auths 0) (nth 1%nat auths 0) (nth 2%nat auths 0).
Definition good_vault (s : store) (p v mint : Z) : Prop :=
  exists t, token_at s v = Some t /\ a_len (sget s v) = 165 /\ t_owner t = p /\ locked_token t /\ t_mint t = mint /\ t_state t = 1.
Record ran_init (s : store) (ix : init_ix) (ms : list meta) (s' : store) (k rqa eqa ba aa cv pv cm pm p : Z) (auths : list Z) : Prop := mkRi {
  ri_keys : exists rent, map mk ms = k :: rqa :: eqa :: ba :: aa :: cv :: pv :: cm :: pm :: rent :: auths;
  ri_auths : zlen auths <= 3;
  ri_zero : forall x, In x [k; rqa; eqa; ba; aa] -> D s x = Some DZero;
  ri_pda : e_pda e (ii_nonce ix) k = Some p;
  ri_cv : good_vault s p cv cm; ri_pv : good_vault s p pv pm;
  ri_diff : NoDup [k; rqa; eqa; ba] /\ NoDup [k; rqa; eqa; aa];
  ri_evn : 128 <= event_slots (a_len (sget s eqa));
  ri_caps : 200 < zlen (s_nodes (blank_book (a_len (sget s ba)))) /\ 200 < zlen (s_nodes (blank_book (a_len (sget s aa))));
  ri_store : s' = put_data (put_data (put_data (put_data (put_data s rqa (DReqQ (0, 0))) eqa (DEventQ (blank_queue (a_len (sget s eqa)))))
      ba (DSlab Bid (blank_book (a_len (sget s ba))))) aa (DSlab Ask (blank_book (a_len (sget s aa))))) k (DMarket (new_market ix k rqa eqa ba aa cv pv cm pm auths)) }.
Lemma each_ok f ks : each f ks = Ok tt -> forall x, In x ks -> f x = Ok tt.
Proof.
  induction ks as [|k r IH]; cbn [each]; intros H x I; [destruct I|]. apply rbind_ok in H. destruct H as ([] & H1 & H). destruct I as [<-|I]; auto.
Qed.
Lemma check_vault_ok s p v mint : check_vault s p v mint = Ok tt -> good_vault s p v mint.
Proof.
  unfold check_vault. intros H. apply rbind_ok in H. destruct H as (t & H1 & H). apply load_token_ok in H1. destruct H1 as (T1 & T2 & T3).
  apply rbind_ok in H. destruct H as (? & _ & H). apply rbind_ok in H. destruct H as (? & H2 & H). apply check_ok in H2.
  apply rbind_ok in H. destruct H as (? & H3 & H). apply check_ok in H3. apply rbind_ok in H. destruct H as (? & H4 & H). apply check_ok in H4. apply check_ok in H.
  exists t. split; [assumption|]. split; [assumption|]. split; [lia|]. split; [|split; [lia|assumption]]. split; [destruct (t_delegate t); [discriminate|reflexivity]|destruct (t_close t); [discriminate|reflexivity]].
Qed.
Lemma init_ran c s ix ms s' : proc_init_market e c s ix ms = Ok s' ->
  exists k rqa eqa ba aa cv pv cm pm p auths, ran_init s ix ms s' k rqa eqa ba aa cv pv cm pm p auths.
Proof.
  unfold proc_init_market. intros H. destruct (map mk ms) as [|k [|rqa [|eqa [|ba [|aa [|cv [|pv [|cm [|pm [|rent auths]]]]]]]]]] eqn:EK; try discriminate.
  next H u0 H0. apply check_ok in H0. next H u1 H1. next H u2 H2. destruct u2. next H p H3. next H u4 H4. destruct u4. next H u5 H5. destruct u5. nextc H H6. nextc H H7. nextc H H8.
  cbv zeta in H. next H u9 H9. next H u10 H10. nextc H H11. injection H as <-.
  assert (FR : forall x, In x [k; rqa; eqa; ba; aa] -> D s x = Some DZero).
  { intros y0 I. pose proof (each_ok _ _ H2 y0 I) as F. unfold check_fresh in F. apply rbind_ok in F. destruct F as (? & F1 & F). apply check_ok in F1.
    apply rbind_ok in F. destruct F as (? & F2 & F). apply check_ok in F. unfold dexd. rewrite F1. destruct (a_data (sget s y0)); try discriminate. reflexivity. }
  assert (CB : 200 < zlen (s_nodes (blank_book (a_len (sget s ba))))).
  { unfold assert_minimum_capacity in H9. unfold blank_book. destruct (Z.leb_spec (zlen (s_nodes (slab_new (Z.to_nat (slab_slots (a_len (sget s ba))))))) (100 * 2)); [discriminate|lia]. }
  assert (CA : 200 < zlen (s_nodes (blank_book (a_len (sget s aa))))).
  { unfold assert_minimum_capacity in H10. unfold blank_book. destruct (Z.leb_spec (zlen (s_nodes (slab_new (Z.to_nat (slab_slots (a_len (sget s aa))))))) (100 * 2)); [discriminate|lia]. }
  assert (KB : k <> ba /\ k <> aa).
  { assert (G : zlen (s_nodes (blank_book (a_len (sget s k)))) <= 200).
    { assert (L : a_len (sget s k) = MARKET_V1_LEN \/ a_len (sget s k) = MARKET_V2_LEN) by (destruct auths; lia). destruct L as [->| ->]; vm_compute; discriminate. }
    split; intros <-; lia. }
  exists k, rqa, eqa, ba, aa, cv, pv, cm, pm, p, auths. constructor.
  - eauto.
  - lia.
  - exact FR.
  - destruct (e_pda e (ii_nonce ix) k); [|discriminate]. cbn [ok_or] in H3. congruence.
  - apply check_vault_ok. assumption.
  - apply check_vault_ok. assumption.
  - unfold key_in in H6. cbn [existsb] in H6. split; repeat constructor; cbn [In]; lia.
  - lia.
  - auto.
  - reflexivity.
Qed.

Section Step.
Variables (s : store) (ix : init_ix) (ms : list meta) (s' : store) (k rqa eqa ba aa cv pv cm pm p : Z) (auths : list Z).
Hypothesis (W : wstruct (D s)) (R : ran_init s ix ms s' k rqa eqa ba aa cv pv cm pm p auths) (SZ : a_len (sget s eqa) < 9223372036854775808).
Let m := new_market ix k rqa eqa ba aa cv pv cm pm auths.
Definition init_view (y : Z) : option adata :=
  if y =? k then Some (DMarket m) else if y =? aa then Some (DSlab Ask (blank_book (a_len (sget s aa))))
  else if y =? ba then Some (DSlab Bid (blank_book (a_len (sget s ba))))
  else if y =? eqa then Some (DEventQ (blank_queue (a_len (sget s eqa)))) else if y =? rqa then Some (DReqQ (0, 0)) else D s y.
Lemma in_D s0 x d : (exists d0, D s0 x = Some d0) -> (forall y, D (put_data s0 x d) y = if y =? x then Some d else D s0 y) /\ quiet s0 (put_data s0 x d).
Proof. intros (d0 & H). split; [intros; eapply dexd_put_owned; eassumption|eapply quiet_put; eassumption]. Qed.
Lemma in_view : (forall y, D s' y = init_view y) /\ quiet s s'.
Proof.
  destruct R as [r1 r2 r3 r4 r5 r6 r7 r8 r9 ->].
  assert (Z0 : D s k = Some DZero /\ D s rqa = Some DZero /\ D s eqa = Some DZero /\ D s ba = Some DZero /\ D s aa = Some DZero) by (repeat split; apply r3; cbn; auto 6).
  destruct Z0 as (z1 & z2 & z3 & z4 & z5).
  destruct (in_D s rqa (DReqQ (0, 0))) as [V1 Q1]; [eauto|]. set (s1 := put_data s rqa _) in *.
  destruct (in_D s1 eqa (DEventQ (blank_queue (a_len (sget s eqa))))) as [V2 Q2]; [rewrite V1; destruct (eqa =? rqa); eauto|]. set (s2 := put_data s1 eqa _) in *.
  destruct (in_D s2 ba (DSlab Bid (blank_book (a_len (sget s ba))))) as [V3 Q3]; [rewrite V2, V1; destruct (ba =? eqa), (ba =? rqa); eauto|]. set (s3 := put_data s2 ba _) in *.
  destruct (in_D s3 aa (DSlab Ask (blank_book (a_len (sget s aa))))) as [V4 Q4]; [rewrite V3, V2, V1; destruct (aa =? ba), (aa =? eqa), (aa =? rqa); eauto|]. set (s4 := put_data s3 aa _) in *.
  destruct (in_D s4 k (DMarket m)) as [V5 Q5]; [rewrite V4, V3, V2, V1; destruct (k =? aa), (k =? ba), (k =? eqa), (k =? rqa); eauto|].
  split; [|eauto using quiet_trans]. intros y. fold m. rewrite V5, V4, V3, V2, V1. reflexivity.
Qed.
(** Accounts in use are not touched. *)
Lemma in_kept y d : D s y = Some d -> d <> DZero -> D s' y = Some d.
Proof.
  intros H N. rewrite (proj1 in_view). unfold init_view. pose proof (ri_zero _ _ _ _ _ _ _ _ _ _ _ _ _ _ _ R) as Z0.
  destruct (Z.eqb_spec y k) as [->|]; [rewrite (Z0 k) in H by (cbn; auto); congruence|]. destruct (Z.eqb_spec y aa) as [->|]; [rewrite (Z0 aa) in H by (cbn; auto 6); congruence|].
  destruct (Z.eqb_spec y ba) as [->|]; [rewrite (Z0 ba) in H by (cbn; auto 6); congruence|]. destruct (Z.eqb_spec y eqa) as [->|]; [rewrite (Z0 eqa) in H by (cbn; auto 6); congruence|].
  destruct (Z.eqb_spec y rqa) as [->|]; [rewrite (Z0 rqa) in H by (cbn; auto 6); congruence|]. assumption.
Qed.
Lemma in_was_market y my : D s' y = Some (DMarket my) -> (y = k /\ my = m) \/ (y <> k /\ D s y = Some (DMarket my)).
Proof.
  rewrite (proj1 in_view). unfold init_view. destruct (Z.eqb_spec y k) as [->|]; [intros [= <-]; auto|].
  destruct (y =? aa); [discriminate|]. destruct (y =? ba); [discriminate|]. destruct (y =? eqa); [discriminate|]. destruct (y =? rqa); [discriminate|]. auto.
Qed.
Lemma in_was_oo y oo : D s' y = Some (DOO oo) <-> D s y = Some (DOO oo).
Proof.
  split; [|intros; apply in_kept; [assumption|discriminate]]. rewrite (proj1 in_view). unfold init_view. destruct (y =? k); [discriminate|].
  destruct (y =? aa); [discriminate|]. destruct (y =? ba); [discriminate|]. destruct (y =? eqa); [discriminate|]. destruct (y =? rqa); [discriminate|]. auto.
Qed.
Lemma in_own : D s' k = Some (DMarket m) /\ (ba <> aa -> D s' ba = Some (DSlab Bid (blank_book (a_len (sget s ba))))) /\
  D s' aa = Some (DSlab Ask (blank_book (a_len (sget s aa)))) /\ D s' eqa = Some (DEventQ (blank_queue (a_len (sget s eqa)))) /\ D s' rqa = Some (DReqQ (0, 0)).
Proof.
  destruct (ri_diff _ _ _ _ _ _ _ _ _ _ _ _ _ _ _ R) as [d1 d2]. rewrite !(proj1 in_view). unfold init_view.
  repeat match goal with H : NoDup (_ :: _) |- _ => apply NoDup_cons_iff in H; destruct H end. cbn [In] in *.
  rewrite !Z.eqb_refl. replace (ba =? k) with false by lia. replace (aa =? k) with false by lia. replace (eqa =? k) with false by lia. replace (rqa =? k) with false by lia.
  replace (eqa =? aa) with false by lia. replace (rqa =? aa) with false by lia. replace (eqa =? ba) with false by lia. replace (rqa =? ba) with false by lia. replace (rqa =? eqa) with false by lia.
  repeat (split; [auto|]). { intros N. replace (ba =? aa) with false by lia. reflexivity. } auto.
Qed.
Lemma in_live y x oo : live (D s') y x oo <-> live (D s) y x oo.
Proof. unfold live. rewrite in_was_oo. reflexivity. Qed.
Lemma in_flags : check_market_flags (market_flags auths) true = Ok tt /\ check_market_flags (market_flags auths) false = Ok tt.
Proof. pose proof (ri_auths _ _ _ _ _ _ _ _ _ _ _ _ _ _ _ R) as L. destruct auths as [|? [|? [|? ?]]]; split; reflexivity. Qed.
Lemma in_struct : wstruct (D s').
Proof.
  clear SZ. destruct in_own as (o1 & o2 & o3 & o4 & o5). pose proof (ri_zero _ _ _ _ _ _ _ _ _ _ _ _ _ _ _ R) as Z0.
  assert (zk : D s k = Some DZero) by (apply Z0; cbn; auto). assert (zr : D s rqa = Some DZero) by (apply Z0; cbn; auto 6).
  assert (ze : D s eqa = Some DZero) by (apply Z0; cbn; auto 6). assert (zb : D s ba = Some DZero) by (apply Z0; cbn; auto 6). assert (za : D s aa = Some DZero) by (apply Z0; cbn; auto 6).
  assert (ISL : forall y my, D s y = Some (DMarket my) -> m_bids my <> ba /\ m_asks my <> aa /\ m_req_q my <> rqa /\ m_event_q my <> eqa).
  { intros y my H. destruct (ws_asks _ W y my H) as (? & HA). destruct (ws_req _ W y my H) as (? & HR). destruct (ws_evq _ W y my H) as (? & HE).
    split; [|split; [|split]]; intros E; [|rewrite E in HA; congruence|rewrite E in HR; congruence|rewrite E in HE; congruence]. destruct (Z.eq_dec ba (m_asks my)) as [E2|N2]; [rewrite E2 in zb; congruence|].
    destruct (ws_bids _ W y my H) as (? & HB); [rewrite E; exact N2|]. rewrite E in HB. congruence. }
  constructor.
  - intros y my H. destruct (in_was_market y my H) as [[-> ->]|[_ H']]; [reflexivity|exact (ws_own _ W _ _ H')].
  - intros y my H. destruct (in_was_market y my H) as [[-> ->]|[_ H']]; [apply in_flags|exact (ws_flags _ W _ _ H')].
  - intros y my H N. destruct (in_was_market y my H) as [[-> ->]|[_ H']]; [eauto|]. destruct (ws_bids _ W _ _ H' N) as (sl & X). exists sl. apply in_kept; [assumption|discriminate].
  - intros y my H. destruct (in_was_market y my H) as [[-> ->]|[_ H']]; [eauto|]. destruct (ws_asks _ W _ _ H') as (sl & X). exists sl. apply in_kept; [assumption|discriminate].
  - intros y my H. destruct (in_was_market y my H) as [[-> ->]|[_ H']]; [eauto|]. destruct (ws_req _ W _ _ H') as (sl & X). exists sl. apply in_kept; [assumption|discriminate].
  - intros y my H. destruct (in_was_market y my H) as [[-> ->]|[_ H']]; [eauto|]. destruct (ws_evq _ W _ _ H') as (sl & X). exists sl. apply in_kept; [assumption|discriminate].
  - intros k1 m1 k2 m2 H1 H2 N. destruct (in_was_market _ _ H1) as [[-> ->]|[N1 H1']]; destruct (in_was_market _ _ H2) as [[-> ->]|[N2 H2']]; try congruence.
    + destruct (ISL _ _ H2') as (a1 & a2 & a3 & a4). cbn [m new_market m_bids m_asks m_req_q m_event_q]. auto.
    + destruct (ISL _ _ H1') as (a1 & a2 & a3 & a4). cbn [m new_market m_bids m_asks m_req_q m_event_q]. auto.
    + exact (ws_inj _ W _ _ _ _ H1' H2' N).
  - intros y oo H. apply in_was_oo in H. destruct (ws_oo _ W y oo H) as [[F (mm & G)]|F]; [left|right; assumption]. split; [assumption|]. exists mm. apply in_kept; [assumption|discriminate].
  - rewrite (proj1 in_view). unfold init_view. pose proof (ws_zero _ W) as WZ.
    replace (0 =? k) with false by (symmetry; apply Z.eqb_neq; intros <-; congruence). replace (0 =? aa) with false by (symmetry; apply Z.eqb_neq; intros <-; congruence).
    replace (0 =? ba) with false by (symmetry; apply Z.eqb_neq; intros <-; congruence). replace (0 =? eqa) with false by (symmetry; apply Z.eqb_neq; intros <-; congruence).
    replace (0 =? rqa) with false by (symmetry; apply Z.eqb_neq; intros <-; congruence). exact WZ.
Qed.
Definition first_obs : obs := mkObs (blank_book (a_len (sget s ba))) (blank_book (a_len (sget s aa))) m (blank_queue (a_len (sget s eqa))).
Lemma in_state : proper m -> mstate (D s') k m 0 [] (mkA [] [] []) first_obs.
Proof.
  intros (P1 & P2 & P3). destruct in_own as (o1 & o2 & o3 & o4 & o5). constructor; cbn [first_obs ob_mkt ob_bids ob_asks ob_eq]; try assumption; try reflexivity.
  - apply o2. exact P3.
  - split; [constructor|]. intros x oo. split; [intros []|]. intros LV. apply in_live in LV. destruct LV as (L1 & L2 & L3). exfalso.
    destruct (ws_oo _ W x oo L1) as [[_ (mm & G)]|F]; [|rewrite F in L2; discriminate]. rewrite L3 in G.
    rewrite (ri_zero _ _ _ _ _ _ _ _ _ _ _ _ _ _ _ R k) in G by (cbn; auto). discriminate.
  - destruct (ri_caps _ _ _ _ _ _ _ _ _ _ _ _ _ _ _ R) as [c1 c2]. apply ainv_cinv; cbn [first_obs ob_mkt ob_bids ob_asks ob_eq].
    + constructor; cbn [first_obs ob_bids ob_asks ob_eq a_bids a_asks a_evs map]; try apply slab_new_ok; try reflexivity.
      pose proof (ri_evn _ _ _ _ _ _ _ _ _ _ _ _ _ _ _ R) as EN.
      assert (L : event_slots (a_len (sget s eqa)) < 9223372036854775808) by (unfold event_slots in *; apply Z.div_lt_upper_bound; lia).
      constructor; cbn [blank_queue q_buf q_head q_count]; unfold zlen; rewrite repeat_length; lia.
    + unfold slab_cap. lia.
    + unfold slab_cap. lia.
    + apply ainv_init; try reflexivity; assumption.
Qed.
Lemma step_init : winv e s -> winv e s'.
Proof.
  intros WI.  destruct in_view as [V Q]. constructor; [exact in_struct| |].
  - intros y my H P. destruct (in_was_market y my H) as [[-> ->]|[N H']].
    + exists 0, [], (mkA [] [] []), first_obs. apply in_state. exact P.
    + destruct (wi_mkt _ _ WI y my H' P) as (seq & L & A & o & [E1 E2 E3 E4 E5 LS C]). exists seq, L, A, o.
      constructor; try assumption; try (apply in_kept; [assumption|discriminate]). eapply lists_same; [|exact LS]. intros. apply in_live.
  - pose proof (wi_vlt _ _ WI) as [V1 V2 V3].
    assert (OLD : forall y my v mint t, vault_ok e s y my v mint t -> vault_ok e s' y my v mint t).
    { intros y my v mint t []. constructor; try assumption; [rewrite (qu_tok _ _ Q); assumption|rewrite (qu_len _ _ Q); assumption]. }
    assert (NEW : forall v mint, good_vault s p v mint -> exists t, vault_ok e s' k m v mint t).
    { intros v mint (t & T1 & T2 & T3 & T4 & T5 & T6). exists t. constructor; try assumption; [rewrite (qu_tok _ _ Q); assumption|rewrite (qu_len _ _ Q); assumption| |].
      - rewrite T3. exact (ri_pda _ _ _ _ _ _ _ _ _ _ _ _ _ _ _ R).
      - intros _. pose proof (V1 _ _ T1) as U. unfold u64 in U. unfold need, pc_owed. cbn [m new_market m_coin_deposits m_pc_deposits m_pc_fees m_rebates]. destruct (_ =? _), (_ =? _); lia. }
    constructor; [exact (quiet_amounts _ _ Q V1)| |]; intros y my H; destruct (in_was_market y my H) as [[-> ->]|[N H']].
    + apply NEW. exact (ri_cv _ _ _ _ _ _ _ _ _ _ _ _ _ _ _ R).
    + destruct (V2 _ _ H') as (t & T). eauto.
    + apply NEW. exact (ri_pv _ _ _ _ _ _ _ _ _ _ _ _ _ _ _ R).
    + destruct (V3 _ _ H') as (t & T). eauto.
Qed.
End Step.
End Init.
