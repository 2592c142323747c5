(** The event queue keeps its places (C88): through every instruction. *)
From Verif Require Import Base BaseProofs Fees ListSum Queue Codec Critbit Market Matching Core Instr InstrProofs Store Process StoreProofs Bundle World WorldSpec WorldMain WorldAuth WorldRights WorldRent
  TotalSpec TotalProofs ScarceSpec ScarceProofs CountSpec CountProofs RoomSpec RoomProofs.

Definition evq (s : store) (y : Z) : option Z := match a_data (sget s y) with DEventQ q => Some (zlen (q_buf q)) | _ => None end.
Definition is_evq (d : adata) : bool := match d with DEventQ _ => true | _ => false end.
Definition fit (s s' : store) : Prop := forall y n, evq s' y = Some n -> evq s y = Some n.
Lemma fit_refl s : fit s s. Proof. intros y n H. exact H. Qed.
Lemma fit_trans s1 s2 s3 : fit s1 s2 -> fit s2 s3 -> fit s1 s3. Proof. intros A B y n H. apply A, B, H. Qed.
Lemma fit_put s k d : is_evq d = false -> fit s (put_data s k d).
Proof. intros T y n H. unfold evq in *. rewrite put_data_eq in H. destruct (y =? k); [destruct d; discriminate|]. exact H. Qed.
Lemma fit_lam s k x : fit s (put_lamports s k x).
Proof. intros y n H. unfold evq in *. rewrite sget_lam in H. destruct (Z.eqb_spec y k) as [->|]; exact H. Qed.
Lemma fit_evq s s1 k q : fit s s1 -> evq s k = Some (zlen (q_buf q)) -> fit s (put_data s1 k (DEventQ q)).
Proof. intros F E y n H. unfold evq in H. rewrite put_data_eq in H. destruct (Z.eqb_spec y k) as [->|]; [congruence|]. apply F. exact H. Qed.
Ltac fits := match goal with
  | |- fit ?s ?s => apply fit_refl
  | |- fit _ (put_data _ _ _) => eapply fit_trans; [|apply fit_put; reflexivity]; fits
  | |- fit _ (put_lamports _ _ _) => eapply fit_trans; [|apply fit_lam]; fits
  | |- _ => idtac end.
Lemma load_evq s m k q : load_event_q s m k = Ok q -> evq s k = Some (zlen (q_buf q)).
Proof. unfold load_event_q. intros H. apply rbind_ok in H. destruct H as (? & _ & H). unfold evq. destruct (a_data (sget s k)); try discriminate. injection H as <-. reflexivity. Qed.
Lemma fit_obs s a b c k o (q : queue event) : evq s k = Some (zlen (q_buf q)) -> cap o = zlen (q_buf q) -> fit s (write_obs s a b c k o).
Proof. intros E C. unfold write_obs. apply fit_evq; [fits|]. rewrite E. f_equal. symmetry. exact C. Qed.
Lemma fit_spl s a b au sg am s' : spl_transfer s a b au sg am = Ok s' -> fit s s'.
Proof. unfold spl_transfer. intros H. peel H. destruct (a =? b); [injection H as <-; apply fit_refl|]. peel H. injection H as <-. fits. Qed.
Lemma fit_in s held a b au am s' : transfer_in s held a b au am = Ok s' -> fit s s'.
Proof. unfold transfer_in. intros H. destruct (am =? 0); [injection H as <-; apply fit_refl|]. peel H. injection H as <-. eapply fit_spl. eassumption. Qed.
Lemma fit_out s v d sg am s' : send_from_vault s v d sg am = Ok s' -> fit s s'.
Proof. unfold send_from_vault. intros H. destruct (spl_transfer s v d sg true am) eqn:E; try discriminate. injection H as <-. eapply fit_spl. exact E. Qed.
Section Room.
Variable e : env.
Notation D := (dexd e).
Lemma fit_order c s ix ms s' : proc_new_order e c s ix ms = Ok s' -> fit s s'.
Proof.
  unfold proc_new_order. intros H. do 12 (destruct ms as [|? ms]; [discriminate|]). peel H.
  match goal with P : new_order_core _ _ _ _ _ _ _ _ = Ok ?v |- _ => destruct v as [[[o' rq'] oo'] dep]; apply order_cap in P; rename P into PC end. cbv zeta in H.
  eapply fit_trans; [|eapply fit_in; exact H]. fits. eapply fit_obs; [eapply load_evq; eassumption|exact PC].
Qed.
Lemma fit_take s ix ms s' : proc_send_take e s ix ms = Ok s' -> fit s s'.
Proof.
  unfold proc_send_take. intros H. do 12 (destruct ms as [|? ms]; [discriminate|]). peel H.
  match goal with P : send_take_core _ _ _ _ = Ok ?v |- _ => destruct v as [[[o' rq'] dep] wd]; apply take_cap in P; rename P into PC end. cbv zeta in H.
  match type of H with context [match ti_side ix with Bid => ?a | Ask => ?b end] => destruct (match ti_side ix with Bid => a | Ask => b end) as [[[src dv] wv] dst] end.
  apply rbind_ok in H. destruct H as (s2 & T & H). assert (U : fit s s2).
  { eapply fit_trans; [|eapply fit_in; exact T]. fits. eapply fit_obs; [eapply load_evq; eassumption|exact PC]. }
  destruct (wd =? 0); [injection H as <-; exact U|]. eapply fit_trans; [exact U|eapply fit_out; exact H].
Qed.
Lemma fit_cancel s core ms s' : (forall o x oo o' oo', core o x oo = Ok (o', oo') -> cap o' = cap o) -> proc_cancel e s core ms = Ok s' -> fit s s'.
Proof.
  intros C. unfold proc_cancel. intros H. do 6 (destruct ms as [|? ms]; [discriminate|]). peel H. match goal with P : core _ _ _ = Ok ?v |- _ => destruct v as [o' oo']; apply C in P; rename P into PC end. injection H as <-. fits.
  eapply fit_obs; [eapply load_evq; eassumption|exact PC].
Qed.
Lemma fit_orders c ms ixs : forall s s', proc_new_orders e c s ixs ms = Ok s' -> fit s s'.
Proof.
  induction ixs as [|ix r IH]; intros s s' H; cbn [proc_new_orders] in H; [injection H as <-; apply fit_refl|]. apply rbind_ok in H. destruct H as (s1 & H1 & H). eapply fit_trans; [eapply fit_order; exact H1|apply IH; exact H].
Qed.
Lemma fit_cids s cids ms s' : proc_cancel_cids e s cids ms = Ok s' -> fit s s'.
Proof. unfold proc_cancel_cids. intros H. eapply fit_cancel; [|exact H]. cbv beta. intros * X. exact (cids_cap _ _ _ _ _ _ X). Qed.
Lemma fit_replace c s ixs ms s' : proc_replace e c s ixs ms = Ok s' -> fit s s'.
Proof.
  unfold proc_replace. intros H. apply rbind_ok in H. destruct H as (cms & _ & H). apply rbind_ok in H. destruct H as (s1 & H1 & H). eapply fit_trans; [eapply fit_cids; exact H1|eapply fit_orders; exact H].
Qed.
Lemma fit_settle s ms s' : proc_settle e s ms = Ok s' -> fit s s'.
Proof.
  unfold proc_settle. intros H. do 9 (destruct ms as [|? ms]; [discriminate|]). peel H.
  match goal with P : settle_core _ _ _ = Ok ?v |- _ => destruct v as [[[[m' oo'] ca] pa] rb] end. cbv zeta in H. apply rbind_ok in H. destruct H as (s2 & T1 & H). apply rbind_ok in H. destruct H as (s3 & T2 & H).
  assert (U : fit s s3). { eapply fit_trans; [|eapply fit_out; exact T2]. eapply fit_trans; [|eapply fit_out; exact T1]. fits. }
  repeat match type of H with context [match ?x with _ => _ end] => destruct x end; try (injection H as <-; exact U). eapply fit_trans; [exact U|eapply fit_out; exact H].
Qed.
Lemma fit_loop m oos n : forall s q s' q', consume_loop e s m q oos n = Ok (s', q') -> fit s s' /\ zlen (q_buf q') = zlen (q_buf q).
Proof.
  induction n as [|n IH]; intros s q s' q' H; cbn [consume_loop] in H; [injection H as <- <-; split; [apply fit_refl|reflexivity]|].
  apply rbind_ok in H. destruct H as ([ev|] & _ & H); [|injection H as <- <-; split; [apply fit_refl|reflexivity]].
  apply rbind_ok in H. destruct H as (v & _ & H). destruct (binary_search oos (e_owner ev)); [|injection H as <- <-; split; [apply fit_refl|reflexivity]].
  apply rbind_ok in H. destruct H as (oo & _ & H). apply rbind_ok in H. destruct H as (oo' & _ & H). apply rbind_ok in H. destruct H as (r & P & H). apply rbind_ok in H. destruct H as ([q1 v1] & R & H).
  destruct r as [[q2 v2]|]; [|discriminate]. cbn [ok_or] in R. injection R as -> ->. apply pop_len in P. cbn [fst] in H. destruct (IH _ _ _ _ H) as [I1 I2]. split; [|congruence]. eapply fit_trans; [|exact I1]. fits.
Qed.
Lemma fit_consume s m k oos l s' : consume_with e s m k oos l = Ok s' -> fit s s'.
Proof.
  unfold consume_with. intros H. apply rbind_ok in H. destruct H as (q & Q & H). apply rbind_ok in H. destruct H as ([s1 q1] & L & H). injection H as <-. destruct (fit_loop _ _ _ _ _ _ _ L) as [F E].
  apply fit_evq; [exact F|]. rewrite (load_evq _ _ _ _ Q), E. reflexivity.
Qed.
(** A queue that is there has the places it had, or those there was room for in a blank account. *)
Definition fits_or_new (s s' : store) : Prop := forall y n, evq s' y = Some n -> evq s y = Some n \/ (a_data (sget s y) = DZero /\ n = event_slots (a_len (sget s y))).
Lemma fit_or s s' : fit s s' -> fits_or_new s s'. Proof. intros F y n H. left. apply F. exact H. Qed.
Lemma new_init c s ix ms s' : proc_init_market e c s ix ms = Ok s' -> fits_or_new s s'.
Proof.
  intros H. destruct (WorldInit.init_ran e _ _ _ _ _ H) as (k & rqa & eqa & ba & aa & cv & pv & cm & pm & p & auths & R).
  destruct R as [_ _ Z0 _ _ _ _ EV _ ->]. intros y n Y. set (q := WorldInit.blank_queue (a_len (sget s eqa))) in *.
  set (s2 := put_data (put_data s rqa (DReqQ (0, 0))) eqa (DEventQ q)) in *. assert (F : evq s2 y = Some n).
  { revert Y. match goal with |- evq ?x _ = _ -> _ => assert (F : fit s2 x) by fits end. apply F. }
  unfold evq, s2 in F. rewrite put_data_eq in F. destruct (Z.eqb_spec y eqa) as [->|].
  - right. split; [exact (proj2 (dexd_owned _ _ _ _ (Z0 eqa ltac:(cbn [In]; tauto))))|]. injection F as <-. unfold q, WorldInit.blank_queue. cbn [q_buf]. unfold zlen. rewrite repeat_length. lia.
  - left. revert F. change (evq (put_data s rqa (DReqQ (0, 0))) y = Some n -> evq s y = Some n). assert (FF : fit s (put_data s rqa (DReqQ (0, 0)))) by fits. apply FF.
Qed.
Theorem process_fit c s i ms s' : process e c s i ms = Ok s' -> fits_or_new s s'.
Proof.
  intros H. destruct i; cbn [process] in H; try discriminate; [eapply new_init; exact H|..]; apply fit_or.
  - injection H as <-. apply fit_refl.
  - unfold proc_consume in H. destruct (rev ms) as [|? [|? [|? [|? [|? ?]]]]]; try discriminate. do 2 (apply rbind_ok in H; destruct H as (? & _ & H)). eapply fit_consume; exact H.
  - eapply fit_settle; exact H.
  - unfold proc_disable in H. destruct ms as [|? [|? [|? ?]]]; try discriminate. peel H. injection H as <-. fits.
  - unfold proc_sweep in H. destruct ms as [|? [|? [|? [|? [|? [|? [|? ?]]]]]]]; try discriminate. peel H. eapply fit_trans; [|eapply fit_out; exact H]. fits.
  - eapply fit_order; exact H.
  - unfold proc_cancel_v2 in H. eapply fit_cancel; [|exact H]. cbv beta. intros * X. exact (v2_cap _ _ _ _ _ _ _ X).
  - unfold proc_cancel_cid in H. do 1 (apply rbind_ok in H; destruct H as (? & _ & H)). eapply fit_cancel; [|exact H]. cbv beta. intros * X. exact (cid_cap _ _ _ _ _ _ X).
  - eapply fit_take; exact H.
  - unfold proc_close in H. destruct ms as [|? [|? [|? [|? [|? ?]]]]]; try discriminate. cbv zeta in H. peel H. injection H as <-. fits.
  - unfold proc_init_oo in H. do 4 (destruct ms as [|? ms]; [discriminate|]). peel H. injection H as <-. fits.
  - unfold proc_prune in H. destruct ms as [|? [|? [|? [|? [|? [|? [|? [|? ?]]]]]]]]; try discriminate. peel H. match goal with P : prune_core _ _ _ _ = Ok ?v |- _ => destruct v as [o' oo']; apply prune_cap in P; rename P into PC end. injection H as <-. fits.
    eapply fit_obs; [eapply load_evq; eassumption|exact PC].
  - unfold proc_consume_perm in H. destruct (rev ms) as [|? [|? [|? [|? ?]]]]; try discriminate. do 3 (apply rbind_ok in H; destruct H as (? & _ & H)). eapply fit_consume; exact H.
  - eapply fit_cids; exact H.
  - eapply fit_replace; exact H.
  - eapply fit_replace; exact H.
Qed.
Theorem places_kept c s i ms s' y q' : process e c s i ms = Ok s' -> D s' y = Some (DEventQ q') ->
  (exists q, D s y = Some (DEventQ q) /\ zlen (q_buf q') = zlen (q_buf q)) \/ (D s y = Some DZero /\ zlen (q_buf q') = event_slots (a_len (sget s y))).
Proof.
  intros H Y. destruct (dexd_owned _ _ _ _ Y) as [P DA]. destruct (sizes_kept e _ _ _ _ _ H y) as (_ & PS & _).
  assert (DS : D s y = Some (a_data (sget s y))) by (unfold dexd; rewrite <- PS, P, Z.eqb_refl; reflexivity).
  assert (T : evq s' y = Some (zlen (q_buf q'))) by (unfold evq; rewrite DA; reflexivity). destruct (process_fit _ _ _ _ _ H y _ T) as [X|[X1 X2]].
  - left. unfold evq in X. destruct (a_data (sget s y)) as [| | |q| | | | |] eqn:A; try discriminate. injection X as X. exists q. auto.
  - right. rewrite DS, X1. auto.
Qed.
Lemma limited_capped S C s : limited e S C s -> capped e (fun _ => S) s.
Proof.
  intros [L1 L2 L3 [L4 L5]] k m HM P. split; [intros mint H _ A; exact (L1 mint H A)|]. intros q Q. pose proof (L2 _ _ Q) as B. cbv beta.
  assert (S * (1 + zlen (q_buf q)) <= S * (1 + C)) by (apply Z.mul_le_mono_nonneg_l; lia). lia.
Qed.
Theorem limit_lasts S C s c b ms : env_ok e -> anytime e s -> limited e S C s -> limited e S C (transact e c s b ms).
Proof.
  intros EO AT LI. pose proof (tokens_total e EO s c b ms AT) as T. cbv zeta in T. unfold transact in *. destruct (process_bytes e c s b ms) as [s1| |] eqn:E; [|exact LI|exact LI].
  unfold process_bytes in E. apply rbind_ok in E. destruct E as (i & _ & E). destruct T as [T1 T2]. destruct LI as [L1 L2 L3 L4]. constructor; [| | |exact L4].
  - intros mint H A. assert (A0 : all_holders s H).
    { destruct A as [A1 A2]. split; [exact A1|]. intros v t V. destruct (token_at s1 v) as [t1|] eqn:V1; [eauto|]. apply T1 in V1. congruence. }
    destruct (T2 mint H A0) as [_ ->]. apply L1. exact A0.
  - intros y q Y. destruct (places_kept _ _ _ _ _ _ _ E Y) as [(q0 & Q0 & ->)|[Q0 ->]]; [exact (L2 _ _ Q0)|exact (L3 _ _ Q0)].
  - intros y d Y. destruct (sizes_kept e _ _ _ _ _ E y) as (-> & PS & _). destruct (dexd_owned _ _ _ _ Y) as [P _]. eapply L3. unfold dexd. rewrite <- PS, P, Z.eqb_refl. reflexivity.
Qed.
Lemma counted_anytime G n s : counted e G n s -> anytime e s.
Proof.
  induction 1 as [s GE|n s c b ms H IH G0 SZ HB LG|n s s' H IH R]; [exists s; split; [assumption|apply later_now]|..]; destruct IH as (s0 & GE & L); exists s0; (split; [assumption|]).
  - apply later_tx. assumption.
  - eapply later_env; eassumption.
Qed.
(** A whole transaction, of any number of instructions. *)
Theorem limit_bundle S C n s l : env_ok e -> counted e (limited e S C) n s -> limited e S C s -> sized s -> Forall (fun c => is_bytes (ca_bytes c) /\ legal e (ca_metas c)) l ->
  limited e S C (bundle e s l) /\ exists n', (n' <= n + length l)%nat /\ counted e (limited e S C) n' (bundle e s l).
Proof.
  intros EO CN LI SZ F. unfold bundle. destruct (run_all e s l) as [s'|?|] eqn:E; [|split; [exact LI|exists n; split; [lia|exact CN]]..].
  revert n s CN LI SZ E. induction l as [|c r IH]; intros n s CN LI SZ E; cbn [run_all] in E; [injection E as <-; split; [exact LI|exists n; split; [lia|exact CN]]|].
  apply rbind_ok in E. destruct E as (s1 & E1 & E). inversion F as [|? ? [F1 F2] F3]; subst.
  assert (TX : s1 = transact e (ca_clock c) s (ca_bytes c) (ca_metas c)) by (unfold transact; rewrite E1; reflexivity).
  destruct (IH F3 (Datatypes.S n) s1) as [A (n' & N & B)]; [rewrite TX; apply cn_tx; assumption|rewrite TX; apply limit_lasts; [exact EO|eapply counted_anytime; exact CN|exact LI]|eapply sized_step; eassumption|exact E|].
  split; [exact A|]. exists n'. split; [cbn [length]; lia|exact B].
Qed.
Lemma counted_weaker (G G' : store -> Prop) n s : (forall x, G x -> G' x) -> counted e G n s -> counted e G' n s.
Proof. intros W. induction 1; [apply cn_start; assumption|apply cn_tx; auto|eapply cn_env; eassumption]. Qed.
Theorem limit_suffices S C n s : env_ok e -> counted e (limited e S C) n s -> 8 * Z.of_nat n + 16 < B64 -> history e s /\ (limited e S C s -> no_overflow e s).
Proof.
  intros EO CN L. destruct (supply_alone e EO (fun _ => S) n s (counted_weaker _ _ _ _ (limited_capped S C) CN) L) as [A B]. split; [exact A|]. intros LI. apply B. eapply limited_capped. exact LI.
Qed.
End Room.
