(** Histories of a pool program: transactions of anyone, and changes from outside the program. *)
From Verif Require Import Base BaseProofs Fees Core Instr InstrProofs Store Borsh PoolStore Pool AdminPool BorshProofs PoolFees PoolFacts PoolExec.

Lemma Ok_inj {A} (x y : A) : Ok x = Ok y -> x = y.
Proof. congruence. Qed.
Section World.
Variables (e : penv) (P : impl).
(** An address derived from some pool: no one holds a key for it. *)
Definition pda (g : Z) : Prop := exists k n, pe_pda e k n = Some g.
(** The program is not the token program, and derived addresses do not collide. *)
Record penv_ok : Prop := mkPenvOk {
  po_prog : pe_prog e <> spl_id;
  po_inj : forall k n k' n' g, pe_pda e k n = Some g -> pe_pda e k' n' = Some g -> k = k' /\ n = n' }.
(** The account holds this pool state. *)
Definition pool_at (s : pstore) (k : Z) (st : pstate) : Prop :=
  pa_prog (pget s k) = pe_prog e /\ exists b r, pa_data (pget s k) = PBytes b /\ is_bytes b /\ get_state e b = Some (st, r).
(** A transaction: data are bytes, keys are keys, and derived addresses do not sign. *)
Definition honest (ms : list meta) (b : bytes) : Prop :=
  is_bytes b /\ Forall (fun m => wf_key (mk m) /\ (mk_signer m = true -> ~ pda (mk m))) ms.
(** Balances are not negative and keys are keys. *)
Record store_ok (s : pstore) : Prop := mkStoreOk {
  so_bal : forall k, 0 <= bal s k;
  so_supply : forall m, 0 <= supply s m;
  so_mint : forall k t, ptoken s k = Some t -> wf_key (t_mint t);
  so_bytes : forall k b, pa_prog (pget s k) = pe_prog e -> pa_data (pget s k) = PBytes b -> is_bytes b }.
(** A token account that only the derived address [g] can spend from or close. *)
Definition held (s : pstore) (k g : Z) : Prop :=
  exists t, ptoken s k = Some t /\ t_owner t = g /\ t_delegate t = None /\ (t_close t = None \/ t_close t = Some g).
Definition minted_by (s : pstore) (m g : Z) : Prop := exists i, pmint s m = Some i /\ mi_auth i = Some g.
(** Changes made outside the program, by the rules of the runtime and of the token program. *)
Record rely (s s' : pstore) : Prop := mkRely {
  re_ok : store_ok s';
  re_keep : forall k, pa_prog (pget s k) = pe_prog e -> pa_prog (pget s' k) = pe_prog e /\ pa_data (pget s' k) = pa_data (pget s k);
  re_new : forall k, pa_prog (pget s' k) = pe_prog e -> pa_prog (pget s k) <> pe_prog e -> exists n, pa_data (pget s' k) = PBytes (repeat 0 n);
  re_held : forall k g, pda g -> held s k g -> held s' k g /\ bal s k <= bal s' k;
  re_minted : forall m g, pda g -> minted_by s m g -> minted_by s' m g /\ supply s' m <= supply s m }.
Inductive pstep (s s' : pstore) : Prop :=
| Step_tx ms b : honest ms b -> pool_entry e P s ms b = Ok s' -> pstep s s'
| Step_env : rely s s' -> pstep s s'.
(** The beginning: no account of the program holds anything. *)
Definition begin (s : pstore) : Prop :=
  store_ok s /\ forall k, pa_prog (pget s k) = pe_prog e -> exists n, pa_data (pget s k) = PBytes (repeat 0 n).
Inductive preach : pstore -> Prop :=
| Pr_begin s : begin s -> preach s
| Pr_step s s' : preach s -> pstep s s' -> preach s'.

(** ** What a transaction did *)
Definition overwrite (d b : bytes) : bytes := d ++ skipn (length d) b.
Definition blank (b : bytes) : Prop := Forall (fun x => x = 0) b.
Inductive effect (s s' : pstore) (ms : list meta) (b : bytes) : Prop :=
| Ef_init k st b0 : (exists q, whole (get_request e) b = Some (RInit q)) -> hd_error (map mk ms) = Some k -> ms <> [] -> pa_prog (pget s k) = pe_prog e -> pa_data (pget s k) = PBytes b0 -> blank b0 -> wf_state e st ->
    zlen (put_state st) <= zlen b0 -> pe_pda e k (ps_nonce st) = Some (ps_signer st) -> minted_by s (ps_mint st) (ps_signer st) -> MIN_FEE_RATE <= ps_rate st < FEE_RATE_DENOMINATOR ->
    (exists cx st0, im_init P cx st0 = Ok st /\ ps_admin st0 = None /\ ps_params st0 = [] /\ ps_custom st0 = []) ->
    s' = pset s k (PBytes (overwrite (put_state st) b0)) -> effect s s' ms b
| Ef_retbuf a d st k n act cx bk : whole (get_request e) b = Some (RGetBasket act) -> pool_at s k st -> hd_error (map mk ms) = Some k -> pa_prog (pget s a) <> spl_id -> pa_prog (pget s a) <> pe_prog e ->
    act = Create n /\ im_create P s cx st n = Ok bk \/ act = Redeem n /\ im_redeem P s cx st n = Ok bk ->
    s' = pset s a d -> effect s s' ms b
| Ef_create st c cx n s1 : whole (get_request e) b = Some (RExecute (Create n)) -> ms = call_metas c -> pool_at s (mk (ca_pool c)) st -> u64 n -> call_ok s st c ->
    cx_mint cx = ps_mint st -> cx_vaults cx = map as_vault (ps_assets st) ->
    cx_user cx = Some (mk (ca_pt c), map mk (ca_user c), ca_who c) -> cx_fees cx = Some (ps_lqd st, ps_init st, mk (ca_ref c)) ->
    process_creation e P s cx st n = Ok s1 -> (forall k, pget s' k = pget s1 k) -> effect s s' ms b
| Ef_redeem st c cx n s1 : whole (get_request e) b = Some (RExecute (Redeem n)) -> ms = call_metas c -> pool_at s (mk (ca_pool c)) st -> u64 n -> call_ok s st c ->
    cx_mint cx = ps_mint st -> cx_vaults cx = map as_vault (ps_assets st) ->
    cx_user cx = Some (mk (ca_pt c), map mk (ca_user c), ca_who c) -> cx_fees cx = Some (ps_lqd st, ps_init st, mk (ca_ref c)) ->
    process_redemption e P s cx st n = Ok s1 -> (forall k, pget s' k = pget s1 k) -> effect s s' ms b
| Ef_foreign : whole (get_request e) b = None -> im_foreign P s ms b = Ok s' -> effect s s' ms b.

Lemma zeros b : forallb (fun x => x =? 0) b = true -> blank b.
Proof. unfold blank. rewrite forallb_forall, Forall_forall. intros H x X. specialize (H x X). lia. Qed.
Lemma state_not_blank b st r : get_state e b = Some (st, r) -> ~ blank b.
Proof.
  intros H Z. unfold get_state, pbind, get_tag, pbind, get_num in H. destruct (8 <=? length b)%nat eqn:L; [|discriminate].
  replace (unle (firstn 8 b)) with 0 in H; [discriminate|]. 
  assert (F : Forall (fun x => x = 0) (firstn 8 b)) by (apply Forall_forall; intros x X; apply (proj1 (Forall_forall _ _) Z); rewrite <- (firstn_skipn 8 b); apply in_or_app; auto).
  clear -F. induction F as [|x l -> F IH]; [reflexivity|]. cbn [unle]. rewrite <- IH. reflexivity.
Qed.
Lemma pool_at_fun s k st st' : pool_at s k st -> pool_at s k st' -> st = st'.
Proof. intros (_ & b & r & D & _ & G) (_ & b' & r' & D' & _ & G'). congruence. Qed.
Lemma load_some s k st : store_ok s -> load_state e s k = Ok (Some st) -> pool_at s k st.
Proof.
  intros [_ _ _ SB] H. unfold load_state in H. rstep H. destruct (pa_data (pget s k)) eqn:D; try discriminate. destruct (forallb _ _); [discriminate|].
  destruct (get_state e b) as [[st' r]|] eqn:G; [|discriminate]. injection H as <-. split; [lia|]. exists b, r. repeat split; try assumption. apply (SB k); [lia|assumption].
Qed.
Lemma load_none s k : load_state e s k = Ok None -> pa_prog (pget s k) = pe_prog e /\ exists b, pa_data (pget s k) = PBytes b /\ blank b.
Proof.
  intros H. unfold load_state in H. rstep H. split; [lia|]. destruct (pa_data (pget s k)) eqn:D; try discriminate. destruct (forallb _ _) eqn:Z.
  - exists b. split; [reflexivity|]. apply zeros. assumption.
  - destruct (get_state e b) as [[st' r]|]; discriminate.
Qed.
Lemma pset_same s k d : pa_data (pget s k) = d -> forall k', pget (pset s k d) k' = pget s k'.
Proof. intros H k'. rewrite pget_pset. destruct (Z.eqb_spec k k') as [<-|]; [|reflexivity]. destruct (pget s k); cbn in *; congruence. Qed.
(** Saving the state that was read writes back the same bytes. *)
Lemma save_same s k st s' : pool_at s k st -> save_state s k st = Ok s' -> forall k', pget s' k' = pget s k'.
Proof.
  intros (_ & b & r & D & B & G) H. unfold save_state in H. rewrite D in H. rstep H. apply Ok_inj in H. subst s'. apply pset_same. rewrite D. apply (f_equal PBytes).
  destruct (proj2 (state_ok e) b st r B G) as (_ & Q & _). rewrite Q at 2. rewrite skipn_app, skipn_all, Nat.sub_diag. exact Q.
Qed.
Lemma frame_pool s s' k st : tok_frame s s' -> pool_at s k st -> pool_at s' k st.
Proof.
  intros F (Q & b & r & D & B & G). destruct (F k) as (F1 & _ & F3). rewrite D in F3. destruct (pa_data (pget s' k)) as [b'| |] eqn:D'; try (exfalso; exact F3).
  cbn in F3. subst b'. split; [congruence|]. exists b, r. auto.
Qed.
Lemma is_bytes_le n z : is_bytes (le n z).
Proof. revert z. induction n as [|n IH]; intros z; [constructor|]. cbn [le]. constructor; [apply Z.mod_pos_bound; lia|apply IH]. Qed.

Lemma forall_next (Q : meta -> Prop) ms m r : ms = m :: r -> Forall Q ms -> Q m /\ Forall Q r.
Proof. intros -> F. inversion F; auto. Qed.
Lemma vault_assets_ok s vs : forall l, vault_assets s vs = Ok l -> length l = length vs /\ map as_vault l = map mk vs.
Proof.
  induction vs as [|v vs IH]; intros l H; cbn [vault_assets] in H; [injection H as <-; repeat split; constructor|].
  apply rbind_ok in H. destruct H as (t & T & H). apply rbind_ok in H. destruct H as (l' & L & H). injection H as <-. destruct (IH _ L) as (I1 & I3).
  split; [cbn [length]; congruence|]. cbn [map as_vault]; congruence.
Qed.
Lemma context_init s ms st rq cx : context_new s ms st (RInit rq) = Ok cx -> minted_by s (ps_mint st) (ps_signer st) /\ mk (cx_auth cx) = ps_signer st /\ incl (cx_custom cx) ms /\
  Forall (fun a => exists t, ptoken s (as_vault a) = Some t /\ t_mint t = as_mint a) (ps_assets st).
Proof.
  intros H. unfold context_new in H.
  apply rbind_ok in H. destruct H as ([pool r1] & N1%next_ok & H).
  apply rbind_ok in H. destruct H as ([mint r2] & N2%next_ok & H).
  apply rbind_ok in H. destruct H as ([vaults r3] & [N3 L3]%nexts_ok & H).
  apply rbind_ok in H. destruct H as ([auth r4] & N4%next_ok & H).
  apply rbind_ok in H. destruct H as ([] & C1%check_address_ok & H).
  apply rbind_ok in H. destruct H as ([] & C2%check_minter_ok & H).
  apply rbind_ok in H. destruct H as ([] & C3%check_all_ok & H); [|lia].
  apply rbind_ok in H. destruct H as ([] & C4%check_address_ok & H). cbv zeta in H.
  apply rbind_ok in H. destruct H as ([lqd r8] & N8%next_ok & H).
  apply rbind_ok in H. destruct H as ([ini r9] & N9%next_ok & H).
  apply rbind_ok in H. destruct H as ([rent r10] & N10%next_ok & H).
  apply rbind_ok in H. destruct H as ([] & _ & H). apply rbind_ok in H. destruct H as ([] & _ & H). injection H as <-. cbn [cx_auth cx_custom].
  rewrite C1 in C2. split; [exact C2|]. split; [assumption|]. split.
  - subst. intros m M. right. right. apply in_or_app. right. right. right. right. right. exact M.
  - clear -C3. induction C3 as [|x y l l' H C3 IH]; constructor; [|assumption]. apply rbind_ok in H. destruct H as ([] & H1%check_address_ok & H2%check_token_ok).
    rewrite H1 in H2. destruct H2 as (t & T1 & T2 & _). eauto.
Qed.

(** What initialisation may do to the state it is handed. *)
Hypothesis STD : standard e P.
Lemma std_init cx st st' : im_init P cx st = Ok st' ->
  ps_mint st' = ps_mint st /\ ps_signer st' = ps_signer st /\ ps_nonce st' = ps_nonce st /\ ps_rate st' = ps_rate st /\
  (wf_state e st -> Forall (fun m => wf_key (mk m)) (cx_custom cx) -> wf_state e st').
Proof.
  destruct STD as [Q|Q]; rewrite Q; cbn [im_init default_impl admin_impl]; intros H; [injection H as <-; auto|].
  unfold admin_init in H. destruct (cx_custom cx) as [|a r]; [discriminate|]. apply Ok_inj in H. subst st'. cbn [write_paused set_admin ps_mint ps_signer ps_nonce ps_rate].
  do 4 (split; [reflexivity|]). intros [] F. constructor; cbn [ps_mint ps_assets ps_signer ps_nonce ps_params ps_name ps_lqd ps_init ps_rate ps_admin ps_custom]; try assumption.
  - intros a' [= <-]. inversion F; assumption.
  - split; [reflexivity|]. unfold put_custom, put_bool. apply is_bytes_app. split; apply is_bytes_le.
Qed.
Lemma lengths_len st : lengths_ok st = true -> len32 (ps_assets st) /\ len32 (ps_params st) /\ len32 (ps_name st) /\ len32 (ps_custom st).
Proof. unfold lengths_ok. cbn [forallb]. unfold len32. change (2 ^ 32) with 4294967296. lia. Qed.
Lemma wf_metas ms b : honest ms b -> Forall (fun m => wf_key (mk m)) ms.
Proof. intros [_ F]. eapply Forall_impl; [|exact F]. intros m [H _]. exact H. Qed.

Lemma tagged rq b : b = put_request rq -> (8 <=? length b)%nat && (num b 0 8 =? POOL_REQUEST_TAG) = true.
Proof.
  intros ->. unfold put_request. set (t := match rq with RInit _ => _ | _ => _ end). rewrite app_length, le_len. replace (8 <=? 8 + length t)%nat with true by (symmetry; apply Nat.leb_le; lia). reflexivity.
Qed.
Lemma effect_of s s' ms b : store_ok s -> honest ms b -> pool_entry e P s ms b = Ok s' -> effect s s' ms b.
Proof.
  intros SO HO H. pose proof (wf_metas _ _ HO) as WM. pose proof (proj1 HO) as BB. unfold pool_entry in H. destruct (_ && _) eqn:TG.
  2:{ apply Ef_foreign; [|assumption]. destruct (whole (get_request e) b) as [rq|] eqn:W; [|reflexivity]. exfalso. destruct (proj2 (whole_ok _ _ _ (request_ok e)) b rq BB W) as [_ EB].
      rewrite (tagged rq) in TG by assumption. discriminate. }
  rstep H. rename E into WQ. assert (WR := proj2 (whole_ok _ _ _ (request_ok e)) b x BB WQ). destruct WR as [WR _].
  unfold process_request in H. apply rbind_ok in H. destruct H as ([pool r] & N%next_ok & H). apply rbind_ok in H. destruct H as (o & L & H).
  destruct o as [st|], x as [q|a|a]; try discriminate.
  - (* get basket *)
    apply load_some in L; [|assumption]. apply rbind_ok in H. destruct H as (cx & C & H). apply rbind_ok in H. destruct H as (bk & B & H).
    assert (RB : exists ra rp, cx_retbuf cx = Some (ra, rp) /\ pa_prog (pget s ra) = rp).
    { unfold context_new in C. do 4 (apply rbind_ok in C; destruct C as ([? ?] & _ & C)). do 4 (apply rbind_ok in C; destruct C as ([] & _ & C)). cbv zeta in C.
      apply rbind_ok in C. destruct C as ([ra r'] & _ & C). apply rbind_ok in C. destruct C as ([rp r''] & _ & C). apply rbind_ok in C. destruct C as ([] & K%check_ok & C).
      apply rbind_ok in C. destruct C as ([? ?] & _ & C). apply rbind_ok in C. destruct C as ([] & _ & C). injection C as <-. cbn [cx_retbuf]. exists (mk ra), (mk rp). split; [reflexivity|lia]. }
    destruct RB as (ra & rp & R1 & R2). unfold write_retbuf in H. rewrite R1 in H. destruct (_ || _) eqn:NS; [discriminate|]. apply rbind_ok in H. destruct H as (d & _ & H). injection H as <-.
    destruct a as [n|n|l]; [| |discriminate].
    + eapply (Ef_retbuf s _ ms b ra d st (mk pool) n (Create n) cx bk); [assumption|assumption|rewrite N; reflexivity|lia|lia|auto|reflexivity].
    + eapply (Ef_retbuf s _ ms b ra d st (mk pool) n (Redeem n) cx bk); [assumption|assumption|rewrite N; reflexivity|lia|lia|auto|reflexivity].
  - (* execute *)
    apply load_some in L; [|assumption]. apply rbind_ok in H. destruct H as (cx & C & H). apply rbind_ok in H. destruct H as (s1 & X & H).
    apply context_exec in C. destruct C as (c & C1 & C2 & C3 & C4 & C5 & C6 & C7 & C8 & _). assert (EP : pool = ca_pool c) by (rewrite N in C1; unfold call_metas in C1; congruence). subst pool.
    assert (S0 : 0 <= supply s (ps_mint st)) by apply SO.
    destruct a as [n|n|l]; [| |discriminate]; cbn [wf_request wf_action] in WR.
    + assert (F : tok_frame s s1) by (eapply create_ok in X; try eassumption; apply X).
      eapply Ef_create; try eassumption. apply (save_same s1 (mk (ca_pool c)) st s'); [eapply frame_pool; eassumption|assumption].
    + assert (F : tok_frame s s1) by (eapply redeem_ok in X; try eassumption; apply X).
      eapply Ef_redeem; try eassumption. apply (save_same s1 (mk (ca_pool c)) st s'); [eapply frame_pool; eassumption|assumption].
  - (* initialise *)
    apply load_none in L. destruct L as (L1 & b0 & L2 & L3). cbn [wf_request] in WR. destruct WR as (W1 & W2 & W3 & W4 & W5). unfold initialize_pool in H.
    pose proof WM as WMA.
    apply rbind_ok in H. destruct H as ([pool' r1] & N1%next_ok & H). assert (pool' = pool) by congruence. subst pool'. destruct (forall_next _ _ _ _ N1 WM) as [K1 WM1].
    apply rbind_ok in H. destruct H as ([mint r2] & N2%next_ok & H). destruct (forall_next _ _ _ _ N2 WM1) as [K2 WM2].
    apply rbind_ok in H. destruct H as ([vaults r3] & [N3 L3']%nexts_ok & H). rewrite N3 in WM2. apply Forall_app in WM2. destruct WM2 as [K3 WM3].
    apply rbind_ok in H. destruct H as ([signer r4] & N4%next_ok & H). destruct (forall_next _ _ _ _ N4 WM3) as [K4 WM4].
    apply rbind_ok in H. destruct H as ([lqd r5] & N5%next_ok & H). destruct (forall_next _ _ _ _ N5 WM4) as [K5 WM5].
    apply rbind_ok in H. destruct H as ([ini r6] & N6%next_ok & H). destruct (forall_next _ _ _ _ N6 WM5) as [K6 WM6].
    apply rbind_ok in H. destruct H as (assets & A & H). apply vault_assets_ok in A. destruct A as (A1 & A3). cbv zeta in H.
    set (st := mkPstate (mk mint) assets (mk signer) (iq_nonce q) [] (iq_name q) (mk lqd) (mk ini) (iq_rate q) None []) in *.
    apply rbind_ok in H. destruct H as (cx & C & H). apply context_init in C. destruct C as (C1 & C2 & C3 & C4).
    do 6 (apply rbind_ok in H; destruct H as ([] & _ & H)).
    apply rbind_ok in H. destruct H as (st' & I & H). pose proof I as I'. apply std_init in I. destruct I as (I1 & I2 & I3 & I4 & I5).
    apply rbind_ok in H. destruct H as (a & PA & H). destruct (pe_pda e (mk pool) (ps_nonce st')) as [a'|] eqn:PD; [|discriminate]. injection PA as <-.
    apply rbind_ok in H. destruct H as ([] & K7%check_ok & H). apply rbind_ok in H. destruct H as ([] & K8%check_ok & H). apply rbind_ok in H. destruct H as ([] & K9%check_ok & H).
    unfold save_state in H. rewrite L2 in H. rstep H. apply Ok_inj in H. apply andb_prop in E. destruct E as [E1 E2].
    assert (WS : wf_state e st).
    { assert (LA : len32 assets). { unfold len32, zlen. rewrite A1, L3'. lia. }
      constructor; cbn [st ps_mint ps_assets ps_signer ps_nonce ps_params ps_name ps_lqd ps_init ps_rate ps_admin ps_custom]; try assumption; auto.
      - split; [assumption|]. cbn [st ps_assets] in C4. clear -C4 A3 K3 SO. revert vaults A3 K3. induction C4 as [|a l (t & T1 & T2) C4 IH]; intros [|v vs] A3 K3; try discriminate; constructor.
        + injection A3 as A3 _. inversion K3; subst. split; [rewrite <- T2; eapply so_mint; eassumption|congruence].
        + injection A3 as _ A3. inversion K3; subst. eapply IH; eassumption.
      - split; [reflexivity|constructor].
      - discriminate.
      - split; [reflexivity|constructor]. }
    assert (WS' : wf_state e st').
    { apply I5; [assumption|]. rewrite Forall_forall in *. intros m M. apply WMA. apply C3. assumption. }
    eapply (Ef_init s s' ms b (mk pool) st' b0); try assumption.
    + eauto.
    + rewrite N1. reflexivity.
    + congruence.
    + lia.
    + rewrite PD, I2. f_equal. lia.
    + rewrite I1, I2. assumption.
    + lia.
    + exists cx, st. auto.
    + symmetry. exact H.
Qed.
End World.
