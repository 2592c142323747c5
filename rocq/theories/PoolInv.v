(** What holds in every reachable state of a pool program. *)
From Verif Require Import Base BaseProofs Fees Core Instr InstrProofs Store Borsh PoolStore Pool AdminPool BorshProofs PoolFees PoolFacts PoolExec PoolWorld.

(** ** Balances stay non-negative *)
Definition nonneg (s : pstore) : Prop := (forall k, 0 <= bal s k) /\ (forall m, 0 <= supply s m).
Lemma transfer_nonneg s src dst auth signed amt s' : 0 <= amt -> p_transfer s src dst auth signed amt = Ok s' -> nonneg s -> nonneg s'.
Proof.
  intros A H [N1 N2]. apply transfer_ok in H. destruct H as ((_ & B & S) & _ & _ & L & _). split; [intros k; rewrite B|intros m'; rewrite S]; cbn [net].
  - specialize (N1 k). destruct (Z.eqb_spec src k) as [->|], (Z.eqb_spec dst k); lia.
  - specialize (N2 m'). lia.
Qed.
Lemma mint_nonneg s m dst auth signed amt s' : 0 <= amt -> p_mint_to s m dst auth signed amt = Ok s' -> nonneg s -> nonneg s'.
Proof.
  intros A H [N1 N2]. apply mint_ok in H. destruct H as ((_ & B & S) & _). split; [intros k; rewrite B|intros m'; rewrite S]; cbn [net].
  - specialize (N1 k). destruct (dst =? k); lia.
  - specialize (N2 m'). destruct (m =? m'); lia.
Qed.
Lemma burn_nonneg s src m auth signed amt s' : p_burn s src m auth signed amt = Ok s' -> nonneg s -> nonneg s'.
Proof.
  intros H [N1 N2]. apply burn_ok in H. destruct H as ((_ & B & S) & _ & _ & L1 & L2). split; [intros k; rewrite B|intros m'; rewrite S]; cbn [net].
  - specialize (N1 k). destruct (Z.eqb_spec src k) as [<-|]; lia.
  - specialize (N2 m'). destruct (Z.eqb_spec m m') as [<-|]; lia.
Qed.
Lemma basket_in_nonneg qs : forall s ua vs who s', basket_in s qs ua vs who = Ok s' -> nonneg s -> nonneg s'.
Proof.
  induction qs as [|q qs IH]; intros s ua vs who s' H N; cbn [basket_in] in H; [congruence|]. destruct ua, vs; try congruence.
  rstep H. apply rbind_ok in H. destruct H as (s1 & H1 & H). eapply IH; [eassumption|]. eapply transfer_nonneg; [|eassumption|assumption]. lia.
Qed.
Lemma basket_out_nonneg e qs : forall s ua vs pool nonce auth s', basket_out e s qs ua vs pool nonce auth = Ok s' -> nonneg s -> nonneg s'.
Proof.
  induction qs as [|q qs IH]; intros s ua vs pool nonce auth s' H N; cbn [basket_out] in H; [congruence|]. destruct ua, vs; try congruence.
  rstep H. apply rbind_ok in H. destruct H as ([] & _ & H). apply rbind_ok in H. destruct H as (s1 & H1 & H). eapply IH; [eassumption|]. eapply transfer_nonneg; [|eassumption|assumption]. lia.
Qed.
Lemma mint_each_nonneg e l : forall s cx nonce s', mint_each e s l cx nonce = Ok s' -> nonneg s -> nonneg s'.
Proof.
  induction l as [|[k q] l IH]; intros s cx nonce s' H N; cbn [mint_each] in H; [congruence|]. destruct (Z.ltb_spec 0 q); [|eauto].
  apply rbind_ok in H. destruct H as ([] & _ & H). apply rbind_ok in H. destruct H as (s1 & H1 & H). eapply IH; [eassumption|]. eapply mint_nonneg; [|eassumption|assumption]. lia.
Qed.
Lemma fee_each_nonneg l : forall s pt who s', fee_each s pt l who = Ok s' -> nonneg s -> nonneg s'.
Proof.
  induction l as [|[k q] l IH]; intros s pt who s' H N; cbn [fee_each] in H; [congruence|]. destruct (Z.ltb_spec 0 q); [|eauto].
  apply rbind_ok in H. destruct H as (s1 & H1 & H). eapply IH; [eassumption|]. eapply transfer_nonneg; [|eassumption|assumption]. lia.
Qed.
Lemma create_nonneg e P s cx st n s' : process_creation e P s cx st n = Ok s' -> nonneg s -> nonneg s'.
Proof.
  intros H N. unfold process_creation in H. apply rbind_ok in H. destruct H as (qs & _ & H). destruct (cx_user cx) as [[[pt ua] who]|] eqn:U; [|discriminate].
  apply rbind_ok in H. destruct H as (s1 & B & H). apply basket_in_nonneg in B; [|assumption]. unfold mint_tokens in H. apply rbind_ok in H. destruct H as (f & _ & H).
  rewrite U in H. destruct (cx_fees cx) as [[[? ?] ?]|]; [|discriminate]. eapply mint_each_nonneg; eassumption.
Qed.
Lemma redeem_nonneg e P s cx st n s' : process_redemption e P s cx st n = Ok s' -> nonneg s -> nonneg s'.
Proof.
  intros H N. unfold process_redemption in H. apply rbind_ok in H. destruct H as (f & _ & H). apply rbind_ok in H. destruct H as (qs & _ & H).
  apply rbind_ok in H. destruct H as (s1 & B & H). destruct (cx_user cx) as [[[pt ua] who]|] eqn:U; [|discriminate].
  unfold burn_and_fees in B. rewrite U in B. destruct (cx_fees cx) as [[[? ?] ?]|]; [|discriminate]. apply rbind_ok in B. destruct B as (s0 & B0 & B).
  eapply basket_out_nonneg; [eassumption|]. eapply burn_nonneg; [eassumption|]. eapply fee_each_nonneg; eassumption.
Qed.

Section Inv.
Variables (e : penv) (P : impl).
Hypothesis EOK : penv_ok e.
Hypothesis STD : standard e P.

(** ** Writing an account that is not a token account *)
Section Other.
Variables (s : pstore) (k : Z) (d : pdata).
Hypothesis NS : pa_prog (pget s k) <> spl_id.
Lemma other_token k' : ptoken (pset s k d) k' = ptoken s k'.
Proof. unfold ptoken. rewrite pget_pset. destruct (Z.eqb_spec k k') as [<-|]; [|reflexivity]. cbn [pa_prog]. destruct (Z.eqb_spec (pa_prog (pget s k)) spl_id); [contradiction|reflexivity]. Qed.
Lemma other_mint k' : pmint (pset s k d) k' = pmint s k'.
Proof. unfold pmint. rewrite pget_pset. destruct (Z.eqb_spec k k') as [<-|]; [|reflexivity]. cbn [pa_prog]. destruct (Z.eqb_spec (pa_prog (pget s k)) spl_id); [contradiction|reflexivity]. Qed.
Lemma other_bal k' : bal (pset s k d) k' = bal s k'. Proof. unfold bal. rewrite other_token. reflexivity. Qed.
Lemma other_supply k' : supply (pset s k d) k' = supply s k'. Proof. unfold supply. rewrite other_mint. reflexivity. Qed.
Lemma other_held k' g : held s k' g -> held (pset s k d) k' g. Proof. unfold held. rewrite other_token. auto. Qed.
Lemma other_minted k' g : minted_by (pset s k d) k' g <-> minted_by s k' g. Proof. unfold minted_by. rewrite other_mint. tauto. Qed.
Lemma other_store : store_ok e s -> (pa_prog (pget s k) = pe_prog e -> forall b, d = PBytes b -> is_bytes b) -> store_ok e (pset s k d).
Proof.
  intros [S1 S2 S3 S4] B. constructor; intros; [rewrite other_bal; auto|rewrite other_supply; auto|rewrite other_token in H; eauto|].
  rewrite pget_pset in *. destruct (Z.eqb_spec k k0) as [<-|]; [|eauto]. cbn [pa_prog pa_data] in *. eauto.
Qed.
End Other.
Lemma pool_other s k d k' st : k <> k' -> pool_at e (pset s k d) k' st <-> pool_at e s k' st.
Proof. intros N. unfold pool_at. rewrite pget_pset. replace (k =? k') with false by lia. tauto. Qed.
Lemma put_state_bytes st : wf_state e st -> is_bytes (put_state st).
Proof.
  intros []. unfold put_state.
  assert (K : forall k, is_bytes (key_le k)) by (intros; unfold key_le; rewrite !is_bytes_app; repeat split; apply is_bytes_le).
  rewrite !is_bytes_app. repeat split; try apply is_bytes_le; try apply K; try apply is_bytes_le.
  - unfold put_vec. apply is_bytes_app. split; [apply is_bytes_le|]. apply Forall_flat_map. apply Forall_forall. intros a _. unfold put_asset. apply is_bytes_app. split; apply K.
  - unfold put_vec. apply is_bytes_app. split; [apply is_bytes_le|]. apply Forall_flat_map. apply Forall_forall. intros a _. unfold put_param, put_bool. apply is_bytes_app. split; [apply K|apply is_bytes_le].
  - unfold put_bytes. apply is_bytes_app. split; [apply is_bytes_le|]. apply (proj1 ws_name).
  - destruct (ps_admin st); cbn [put_option]; [apply is_bytes_app; split; [apply is_bytes_le|apply K]|apply is_bytes_le].
  - unfold put_bytes. apply is_bytes_app. split; [apply is_bytes_le|]. apply (proj2 ws_custom).
Qed.
(** A saved state is read back. *)
Lemma pool_saved s k st b : pa_prog (pget s k) = pe_prog e -> wf_state e st -> is_bytes b -> pool_at e (pset s k (PBytes (overwrite (put_state st) b))) k st.
Proof.
  intros Q W B. unfold pool_at. rewrite pget_pset, Z.eqb_refl. cbn [pa_prog pa_data]. split; [assumption|]. exists (overwrite (put_state st) b), (skipn (length (put_state st)) b).
  split; [reflexivity|]. split; [apply is_bytes_app; split; [apply put_state_bytes; assumption|apply is_bytes_skipn; assumption]|]. apply (proj1 (state_ok e)). assumption.
Qed.

(** ** The administrator's requests *)
Definition lent (s : pstore) (v d n : Z) (s1 : pstore) : Prop :=
  exists t, ptoken s v = Some t /\ s1 = pset s v (PToken (mkToken (t_mint t) (t_owner t) (t_amount t) (Some d) n (t_state t) (t_close t))).
Definition vault_free (s : pstore) (v : Z) : Prop := exists t, ptoken s v = Some t /\ (t_delegate t = None \/ t_delegated t <= 0).
(** The new state of the pool and the lending of a vault, request by request. *)
Inductive admin_does (s : pstore) (pool : Z) (r : list meta) (st : pstate) (paused : bool) : admin_req -> pstore -> pstate -> Prop :=
| Ad_pause : admin_does s pool r st paused APause s (write_paused st true)
| Ad_unpause : Forall (fun a => vault_free s (as_vault a)) (ps_assets st) -> admin_does s pool r st paused AUnpause s (write_paused st false)
| Ad_approve n v d vs rest s1 : r = v :: d :: vs :: rest -> In (mk v) (map as_vault (ps_assets st)) -> mk vs = ps_signer st ->
    (exists t, ptoken s (mk v) = Some t /\ t_owner t = ps_signer st) -> lent s (mk v) (mk d) n s1 ->
    admin_does s pool r st paused (AApprove n) s1 (write_paused st true)
| Ad_add v t rest : r = v :: rest -> ptoken s (mk v) = Some t -> t_owner t = ps_signer st ->
    ~ In (mk v) (map as_vault (ps_assets st)) -> ~ In (t_mint t) (map as_mint (ps_assets st)) ->
    admin_does s pool r st paused AAddAsset s (write_paused (set_assets st (ps_assets st ++ [mkAsset (t_mint t) (mk v)])) paused)
| Ad_remove v rest : r = v :: rest -> In (mk v) (map as_vault (ps_assets st)) -> (exists t, ptoken s (mk v) = Some t /\ t_amount t <= 0) ->
    admin_does s pool r st paused ARemoveAsset s (write_paused (set_assets st (filter (fun a => negb (as_vault a =? mk v)) (ps_assets st))) paused)
| Ad_fee x : 150 <= x < 1000000 -> admin_does s pool r st paused (AUpdateFee x) s (write_paused (set_rate st x) paused)
| Ad_admin a rest : r = a :: rest -> mk_signer a = true -> admin_does s pool r st paused AUpdateAdmin s (write_paused (set_admin st (Some (mk a))) paused).

Lemma parse_token_ok s k t : parse_token s k = Ok t -> ptoken s k = Some t.
Proof.
  unfold parse_token, unpack_token. intros H. rstep H. destruct (pa_data (pget s k)) eqn:D; try discriminate. rstep H. injection H as <-. apply ptoken_data. split; [lia|assumption].
Qed.
Lemma no_delegates_ok s l : forall r, no_delegates s l r = Ok tt -> Forall (fun a => vault_free s (as_vault a)) l.
Proof.
  induction l as [|a l IH]; intros r H; [constructor|]. cbn [no_delegates] in H. apply rbind_ok in H. destruct H as ([v r'] & _ & H).
  apply rbind_ok in H. destruct H as ([] & C%check_address_ok & H). apply rbind_ok in H. destruct H as (t & T%parse_token_ok & H). rstep H. constructor; [|eauto].
  exists t. split; [rewrite <- C; assumption|]. apply orb_prop in E. destruct E as [E|E]; [left; apply opt_eqb_true; assumption|right; lia].
Qed.
Lemma filter_len {A} (f : A -> bool) l : length (filter f l) <> length l -> exists x, In x l /\ f x = false.
Proof.
  induction l as [|a l IH]; cbn [filter length]; [congruence|]. destruct (f a) eqn:F; [|exists a; split; [left; reflexivity|assumption]]. cbn [length]. intros H. destruct IH as (x & X & Y); [congruence|]. exists x. split; [right; assumption|assumption].
Qed.
Lemma admin_request_ok s pool r st q s1 st' : admin_request e s pool r st q = Ok (s1, st') ->
  exists p, read_paused st = Ok p /\ admin_does s pool r st p q s1 st'.
Proof.
  intros H. unfold admin_request in H. apply rbind_ok in H. destruct H as (p & RP & H). exists p. split; [exact RP|]. destruct q.
  - apply Ok_inj in H. injection H as <- H. subst st'. constructor.
  - apply rbind_ok in H. destruct H as ([] & H1%no_delegates_ok & H). apply Ok_inj in H. assert (s1 = s) by congruence. assert (st' = write_paused st false) by congruence. subst. constructor. assumption.
  - do 4 (apply rbind_ok in H; destruct H as ([? ?] & ?%next_ok & H)). rstep H. do 3 (apply rbind_ok in H; destruct H as ([] & ? & H)). apply rbind_ok in H. destruct H as (s2 & AP & H).
    assert (s2 = s1) by congruence. assert (st' = write_paused st true) by congruence. subst s2 st'. clear H. subst.
    match goal with H : check_address (mk ?v) (ps_signer st) = Ok tt |- _ => apply check_address_ok in H end.
    unfold p_approve in AP. rstep AP. rstep AP. rstep AP.
    eapply Ad_approve; [reflexivity| |eassumption| |].
    + apply existsb_exists in E. destruct E as (a & A1 & A2). apply in_map_iff. exists a. split; [lia|assumption].
    + exists x. split; [eassumption|]. lia.
    + exists x. split; [eassumption|]. apply Ok_inj in AP. symmetry. exact AP.
  - apply rbind_ok in H. destruct H as ([v r'] & N%next_ok & H). apply rbind_ok in H. destruct H as (t & T%parse_token_ok & H). rstep H. rstep H.
    assert (s1 = s) by congruence. subst s1. apply Ok_inj in H. injection H as H. rewrite <- H. clear H st'. econstructor; try eassumption; [lia| |].
    + intros (a & A1 & A2)%in_map_iff. rewrite negb_true_iff in E. assert (existsb (fun a => (as_vault a =? mk v) || (as_mint a =? t_mint t)) (ps_assets st) = true); [|congruence]. apply existsb_exists. exists a. split; [assumption|]. lia.
    + intros (a & A1 & A2)%in_map_iff. rewrite negb_true_iff in E. assert (existsb (fun a => (as_vault a =? mk v) || (as_mint a =? t_mint t)) (ps_assets st) = true); [|congruence]. apply existsb_exists. exists a. split; [assumption|]. lia.
  - apply rbind_ok in H. destruct H as ([v r'] & N%next_ok & H). apply rbind_ok in H. destruct H as (t & T%parse_token_ok & H). rstep H. rstep H.
    assert (s1 = s) by congruence. subst s1. apply Ok_inj in H. injection H as H. rewrite <- H. clear H st'. econstructor; try eassumption.
    + apply negb_true_iff, Nat.eqb_neq in E0. apply filter_len in E0. destruct E0 as (a & A1 & A2). apply in_map_iff. exists a. split; [lia|assumption].
    + exists t. split; [assumption|lia].
  - rstep H. rstep H. assert (s1 = s) by congruence. subst s1. apply Ok_inj in H. injection H as H. rewrite <- H. constructor. unfold MIN_FEE_RATE, FEE_RATE_DENOMINATOR in *. lia.
  - apply rbind_ok in H. destruct H as ([v r'] & N%next_ok & H). rstep H. assert (s1 = s) by congruence. subst s1. apply Ok_inj in H. injection H as H. rewrite <- H. econstructor; eassumption.
Qed.

(** The paused flag as it is stored. *)
Definition flag_is (st : pstate) (p : bool) : Prop := ps_custom st = put_custom p.
Lemma read_flag st p : is_bytes (ps_custom st) -> read_paused st = Ok p -> flag_is st p.
Proof.
  intros B H. unfold read_paused in H. destruct (whole get_custom (ps_custom st)) as [x|] eqn:W; [|discriminate]. injection H as ->.
  apply (proj2 (whole_ok _ _ _ custom_ok)) in W; [|assumption]. apply W.
Qed.
Lemma flag_read st p : flag_is st p -> read_paused st = Ok p.
Proof. intros H. unfold read_paused. rewrite H. rewrite (proj1 (whole_ok _ _ _ custom_ok)) by exact I. reflexivity. Qed.
Lemma pool_wf s k st : pool_at e s k st -> wf_state e st.
Proof. intros (_ & b & r & _ & B & G). apply (proj2 (state_ok e) b st r B G). Qed.

(** A successful administrative transaction. *)
Record admin_tx (s s' : pstore) (ms : list meta) (k : Z) (st : pstate) (q : admin_req) (st' : pstate) (s1 : pstore) : Prop := mkAdminTx {
  at_metas : exists pool a r p, ms = pool :: a :: r /\ mk pool = k /\ ps_admin st = Some (mk a) /\ mk_signer a = true /\ flag_is st p /\ admin_does s k r st p q s1 st';
  at_pool : pool_at e s k st;
  at_wf : wf_state e st';
  at_save : exists b0, pa_data (pget s k) = PBytes b0 /\ is_bytes b0 /\ s' = pset s1 k (PBytes (overwrite (put_state st') b0)) }.
Lemma lent_other s v d n s1 k : lent s v d n s1 -> pa_prog (pget s k) <> spl_id -> pget s1 k = pget s k.
Proof.
  intros (t & T & ->) N. rewrite pget_pset. destruct (Z.eqb_spec v k) as [->|]; [|reflexivity]. apply ptoken_data in T. destruct T. contradiction.
Qed.
Lemma does_other s k r st p q s1 st' k' : admin_does s k r st p q s1 st' -> pa_prog (pget s k') <> spl_id -> pget s1 k' = pget s k'.
Proof. intros H N. destruct H; try reflexivity. eapply lent_other; eassumption. Qed.
Lemma put_custom_bytes p : is_bytes (put_custom p).
Proof. unfold put_custom, put_bool. apply is_bytes_app. split; apply is_bytes_le. Qed.
Lemma wf_paused st p : wf_state e st -> wf_state e (write_paused st p).
Proof. intros []. constructor; try assumption. cbn [write_paused ps_custom]. split; [destruct p; reflexivity|apply put_custom_bytes]. Qed.
Lemma wf_assets st l : wf_state e st -> len32 l -> Forall wf_asset l -> wf_state e (set_assets st l).
Proof. intros [] L F. constructor; try assumption. split; assumption. Qed.
Lemma foreign_ok s s' ms b : store_ok e s -> honest e ms b -> admin_foreign e s ms b = Ok s' -> exists k st q st' s1, whole get_admin b = Some q /\ admin_tx s s' ms k st q st' s1.
Proof.
  intros SO HO H. unfold admin_foreign in H. apply rbind_ok in H. destruct H as ([pool r] & N%next_ok & H). rstep H.
  destruct (pa_data (pget s (mk pool))) as [d| |] eqn:D; try discriminate. destruct (get_state e d) as [[st rest]|] eqn:G; [|discriminate]. cbn [ok_or rbind] in H.
  apply rbind_ok in H. destruct H as ([a r'] & N'%next_ok & H). rstep H. rstep H. destruct (whole get_admin b) as [q|] eqn:W; [|discriminate]. cbn [ok_or rbind] in H.
  apply rbind_ok in H. destruct H as ([s1 st'] & R & H). apply admin_request_ok in R. destruct R as (p & R1 & R2). apply opt_eqb_true in E0.
  assert (B : is_bytes d) by (eapply so_bytes; [eassumption| |eassumption]; lia).
  assert (PA : pool_at e s (mk pool) st) by (split; [lia|]; exists d, rest; auto).
  pose proof (pool_wf _ _ _ PA) as WF. apply read_flag in R1; [|apply WF].
  assert (NS : pa_prog (pget s (mk pool)) <> spl_id) by (pose proof (po_prog _ EOK); destruct PA; congruence).
  unfold save_state in H. rewrite (does_other _ _ _ _ _ _ _ _ _ R2 NS), D in H. rstep H. apply Ok_inj in H. apply andb_prop in E2. destruct E2 as [E2 E3]. apply lengths_len in E2.
  pose proof (wf_metas _ _ _ HO) as WM. subst ms r.
  exists (mk pool), st, q, st', s1. split; [reflexivity|]. constructor.
  - exists pool, a, r', p. auto 10.
  - assumption.
  - assert (WR : Forall (fun m => wf_key (mk m)) r') by (inversion WM as [|? ? ? WM1]; inversion WM1; assumption).
    destruct R2; try (apply wf_paused; assumption).
    + apply wf_paused. apply wf_assets; [assumption|apply E2|]. apply Forall_app. split; [apply WF|]. subst r'. inversion WR; subst. constructor; [|constructor].
      split; cbn [as_mint as_vault]; [eapply so_mint; eassumption|assumption].
    + apply wf_paused. apply wf_assets; [assumption|apply E2|]. destruct WF as [_ [_ WF] _ _ _ _ _ _ _ _ _]. rewrite Forall_forall in *. intros x X. apply filter_In in X. apply WF, X.
    + apply wf_paused. destruct WF. constructor; try assumption. cbn [set_rate ps_rate]. lia.
    + apply wf_paused. destruct WF. constructor; try assumption. cbn [set_admin ps_admin]. subst r'. inversion WR; subst. intros ? [= <-]. assumption.
  - exists d. split; [assumption|]. split; [assumption|]. symmetry. exact H.
Qed.

(** ** The invariant *)
Definition pool_sound (s : pstore) (k : Z) (st : pstate) : Prop :=
  pe_pda e k (ps_nonce st) = Some (ps_signer st) /\ minted_by s (ps_mint st) (ps_signer st) /\ 150 <= ps_rate st < 1000000.
Definition pools_ok (s : pstore) : Prop := store_ok e s /\ forall k st, pool_at e s k st -> pool_sound s k st.
Lemma held_token s k g t' : held s k g -> ptoken s k = Some t' -> t_owner t' = g /\ t_delegate t' = None.
Proof. intros (t & T & O & D & _) T'. assert (t' = t) by congruence. subst. auto. Qed.
Lemma frame_held s s' k g : tok_frame s s' -> held s k g -> held s' k g.
Proof.
  intros F (t & T & O & D & C). destruct (frame_token _ _ _ _ F T) as (t' & T' & M' & O' & S' & C' & D'). exists t'. split; [assumption|]. split; [congruence|]. split; [|rewrite C'; assumption].
  destruct D'; congruence.
Qed.
Lemma frame_minted s s' k g : tok_frame s s' -> minted_by s k g -> minted_by s' k g.
Proof. intros F (i & I1 & I2). destruct (frame_mint _ _ _ _ F I1) as (i' & J1 & J2). exists i'. split; [assumption|congruence]. Qed.
Lemma frame_pool_back s s' k st : tok_frame s s' -> pool_at e s' k st -> pool_at e s k st.
Proof.
  intros F (Q & b & r & D & B & G). destruct (F k) as (F1 & _ & F3). rewrite D in F3. destruct (pa_data (pget s k)) as [b'| |] eqn:D'; try (exfalso; exact F3).
  cbn in F3. subst b'. split; [congruence|]. exists b, r. auto.
Qed.
Lemma frame_store s s' : store_ok e s -> tok_frame s s' -> nonneg s' -> store_ok e s'.
Proof.
  intros [S1 S2 S3 S4] F [N1 N2]. constructor; [assumption|assumption| |].
  - intros k t T. destruct (frame_token_back _ _ _ _ F T) as (t0 & T0 & M & _). rewrite M. eauto.
  - intros k b Q D. destruct (F k) as (F1 & _ & F3). rewrite D in F3. destruct (pa_data (pget s k)) as [b'| |] eqn:D'; try (exfalso; exact F3). cbn in F3. subst b'. apply (S4 k); [congruence|assumption].
Qed.
Lemma frame_get s s1 s' : tok_frame s s1 -> (forall k, pget s' k = pget s1 k) -> tok_frame s s'.
Proof. intros F G k. rewrite G. apply F. Qed.
Lemma get_bal s s' k : pget s' k = pget s k -> bal s' k = bal s k.
Proof. intros H. unfold bal, ptoken. rewrite H. reflexivity. Qed.
Lemma get_supply s s' k : pget s' k = pget s k -> supply s' k = supply s k.
Proof. intros H. unfold supply, pmint. rewrite H. reflexivity. Qed.
Lemma lent_facts s v d n s1 : lent s v d n s1 -> (forall k, bal s1 k = bal s k) /\ (forall m, pmint s1 m = pmint s m) /\ (forall k, k <> v -> pget s1 k = pget s k) /\
  (forall k t, ptoken s1 k = Some t -> exists t0, ptoken s k = Some t0 /\ t_mint t0 = t_mint t).
Proof.
  intros (t & T & ->). assert (D := T). apply ptoken_data in D. destruct D as [D1 D2]. split; [|split; [|split]].
  - intros k. unfold bal, ptoken. rewrite pget_pset. destruct (Z.eqb_spec v k) as [<-|]; [|reflexivity]. cbn [pa_prog pa_data]. rewrite D1, D2, Z.eqb_refl. reflexivity.
  - intros k. unfold pmint. rewrite pget_pset. destruct (Z.eqb_spec v k) as [<-|]; [|reflexivity]. cbn [pa_prog pa_data]. rewrite D1, D2, Z.eqb_refl. reflexivity.
  - intros k N. rewrite pget_pset. replace (v =? k) with false by lia. reflexivity.
  - intros k t' T'. destruct (Z.eq_dec v k) as [<-|N].
    + unfold ptoken in T'. rewrite pget_pset, Z.eqb_refl in T'. cbn [pa_prog pa_data] in T'. rewrite D1, Z.eqb_refl in T'. injection T' as <-. eauto.
    + exists t'. split; [|reflexivity]. unfold ptoken in *. rewrite pget_pset in T'. replace (v =? k) with false in T' by lia. assumption.
Qed.
Lemma does_store s k r st p q s1 st' : store_ok e s -> admin_does s k r st p q s1 st' -> store_ok e s1 /\ (forall m, pmint s1 m = pmint s m).
Proof.
  intros SO H. destruct H; auto. match goal with H : lent _ _ _ _ _ |- _ => pose proof H as LE; apply lent_facts in H; destruct H as (L1 & L2 & L3 & L4) end. split; [|assumption].
  destruct SO as [S1 S2 S3 S4]. constructor.
  - intros. rewrite L1. auto.
  - intros. unfold supply. rewrite L2. apply S2.
  - intros k0 t T. destruct (L4 _ _ T) as (t0 & T0 & <-). eauto.
  - intros k0 b Q D. destruct (Z.eq_dec k0 (mk v)) as [->|N]; [|rewrite L3 in * by assumption; eauto].
    destruct LE as (t & T & ->). apply ptoken_data in T. rewrite pget_pset, Z.eqb_refl in D. cbn [pa_data] in D. discriminate.
Qed.

Lemma pools_tx s s' ms b : pools_ok s -> honest e ms b -> pool_entry e P s ms b = Ok s' -> pools_ok s'.
Proof.
  intros [SO PO] HO H. apply effect_of in H; try assumption. destruct H as [k st b0 _ _ M0 PK PD BL WF LE PA MI RA _ ->|a d st k n act cx bk WQ PK HD NS NP ACT ->|st c cx n s1 WQ MS PK N CO X1 X2 X3 X4 CR GE|st c cx n s1 WQ MS PK N CO X1 X2 X3 X4 CR GE|WQ FO].
  - assert (NS : pa_prog (pget s k) <> spl_id) by (rewrite PK; apply EOK). assert (B0 : is_bytes b0) by (eapply so_bytes; eassumption).
    split.
    + apply other_store; try assumption. intros _ b1 [= <-]. apply is_bytes_app. split; [apply put_state_bytes; assumption|apply is_bytes_skipn; assumption].
    + intros k' st' PK'. unfold pool_sound. rewrite other_minted by assumption. destruct (Z.eq_dec k k') as [<-|NK].
      * assert (st' = st) as -> by (eapply pool_at_fun; [eassumption|apply pool_saved; assumption]). unfold MIN_FEE_RATE, FEE_RATE_DENOMINATOR in RA. auto.
      * apply pool_other in PK'; [|assumption]. apply PO. assumption.
  - split.
    + apply other_store; try assumption. congruence.
    + intros k' st' PK'. unfold pool_sound. rewrite other_minted by assumption. apply PO. unfold pool_at in *. rewrite pget_pset in PK'. destruct (Z.eqb_spec a k') as [<-|]; [|assumption].
      cbn [pa_prog] in PK'. destruct PK'; contradiction.
  - assert (NN : nonneg s1) by (eapply create_nonneg; [eassumption|split; apply SO]).
    apply (create_ok e P STD s cx st n s1 c) in CR; try assumption; [|apply SO]. destruct CR as (_ & _ & (F & _) & _). pose proof (frame_get _ _ _ F GE) as F'.
    split; [apply (frame_store s s'); try assumption|].
    + split; intros; [rewrite (get_bal s1 s')|rewrite (get_supply s1 s')]; auto; apply NN.
    + intros k' st' PK'. apply (frame_pool_back _ _ _ _ F') in PK'. destruct (PO _ _ PK') as (Q1 & Q2 & Q3). split; [assumption|]. split; [eapply frame_minted; eassumption|assumption].
  - assert (NN : nonneg s1) by (eapply redeem_nonneg; [eassumption|split; apply SO]).
    apply (redeem_ok e P STD s cx st n s1 c) in CR; try assumption; [|apply SO]. cbv zeta in CR. destruct CR as (_ & _ & _ & _ & (F & _) & _). pose proof (frame_get _ _ _ F GE) as F'.
    split; [apply (frame_store s s'); try assumption|].
    + split; intros; [rewrite (get_bal s1 s')|rewrite (get_supply s1 s')]; auto; apply NN.
    + intros k' st' PK'. apply (frame_pool_back _ _ _ _ F') in PK'. destruct (PO _ _ PK') as (Q1 & Q2 & Q3). split; [assumption|]. split; [eapply frame_minted; eassumption|assumption].
  - destruct STD as [EQ|EQ]; rewrite EQ in FO; [discriminate|]. cbn [im_foreign admin_impl] in FO.
    apply foreign_ok with (1 := SO) (2 := HO) in FO. destruct FO as (k & st & q & st' & s1 & _ & [AM AP AW (b0 & D0 & B0 & ->)]).
    destruct AM as (pool & a & r & p & MS & PK & AD & SG & FL & DO). destruct (does_store _ _ _ _ _ _ _ _ SO DO) as [SO1 PM1].
    assert (PR : pa_prog (pget s k) = pe_prog e) by apply AP. assert (NS : pa_prog (pget s k) <> spl_id) by (rewrite PR; apply EOK).
    pose proof (does_other _ _ _ _ _ _ _ _ _ DO NS) as G1. split.
    + apply other_store; try assumption; [rewrite G1; assumption|]. intros _ b1 [= <-]. apply is_bytes_app. split; [apply put_state_bytes; assumption|apply is_bytes_skipn; assumption].
    + intros k' st'' PK'. unfold pool_sound. rewrite other_minted by (rewrite G1; assumption). destruct (Z.eq_dec k k') as [<-|NK].
      * assert (st'' = st') as -> by (eapply pool_at_fun; [eassumption|apply pool_saved; try assumption; rewrite G1; assumption]).
        destruct (PO _ _ AP) as (Q1 & Q2 & Q3). unfold minted_by in *. rewrite PM1.
        destruct DO; cbn [write_paused set_assets set_rate set_admin ps_nonce ps_signer ps_mint ps_rate]; auto.
      * apply pool_other in PK'; [|assumption].
        assert (PK1 : pool_at e s k' st'').
        { unfold pool_at in *. destruct (Z.eq_dec (pa_prog (pget s k')) spl_id) as [Q|Q]; [|rewrite <- (does_other _ _ _ _ _ _ _ _ _ DO Q); assumption].
          exfalso. destruct PK' as [PK' _]. assert (pa_prog (pget s1 k') = pa_prog (pget s k')); [|apply (po_prog _ EOK); congruence].
          clear -DO. destruct DO; try reflexivity. match goal with H : lent _ _ _ _ _ |- _ => destruct H as (t & T & ->) end. rewrite pget_pset. destruct (Z.eqb_spec (mk v) k') as [<-|]; reflexivity. }
        destruct (PO _ _ PK1) as (Q1 & Q2 & Q3). unfold minted_by in *. rewrite PM1. auto.
Qed.
Lemma pools_env s s' : pools_ok s -> rely e s s' -> pools_ok s'.
Proof.
  intros [SO PO] [R1 R2 R3 R4 R5]. split; [assumption|]. intros k st PK. assert (PK0 : pool_at e s k st).
  { destruct PK as (Q & b & r & D & B & G). destruct (Z.eq_dec (pa_prog (pget s k)) (pe_prog e)) as [QQ|QQ].
    - destruct (R2 _ QQ) as [_ DD]. split; [assumption|]. exists b, r. split; [congruence|auto].
    - destruct (R3 _ Q QQ) as (n & DD). exfalso. apply (state_not_blank e b st r G). assert (b = repeat 0 n) as -> by congruence. apply Forall_forall. intros x X. apply repeat_spec in X. assumption. }
  destruct (PO _ _ PK0) as (Q1 & Q2 & Q3). split; [assumption|]. split; [|assumption]. apply (R5 (ps_mint st) (ps_signer st)); [eexists; eexists; exact Q1|assumption].
Qed.
Lemma preach_ok s : preach e P s -> pools_ok s.
Proof.
  induction 1 as [s [SO BG]|s s' R IH ST].
  - split; [assumption|]. intros k st (Q & b & r & D & B & G). exfalso. destruct (BG _ Q) as (n & DD). apply (state_not_blank e b st r G). assert (b = repeat 0 n) as -> by congruence. apply Forall_forall. intros x X. apply repeat_spec in X. assumption.
  - destruct ST as [ms b HO H|H]; [eapply pools_tx; eassumption|eapply pools_env; eassumption].
Qed.
End Inv.
