(** Creating and redeeming pool tokens goes through. *)
From Verif Require Import Base BaseProofs Fees Core Instr InstrProofs Store Borsh PoolStore Pool AdminPool BorshProofs PoolFees PoolFacts PoolExec PoolWorld PoolInv PoolBack PoolUseSpec.

Lemma wallet_open s k m w : wallet s k m w -> open_at s k m.
Proof. intros (t & T & M & S & _). exists t. auto. Qed.
Lemma frame_open s s' k m : tok_frame s s' -> open_at s k m -> open_at s' k m.
Proof. intros F (t & T & M & S). destruct (frame_token _ _ _ _ F T) as (t' & T' & M' & O' & S' & C' & D'). exists t'. split; [assumption|]. split; congruence. Qed.
Lemma frame_wallet s s' k m w : tok_frame s s' -> wallet s k m w -> wallet s' k m w.
Proof.
  intros F (t & T & M & S & O & D). destruct (frame_token _ _ _ _ F T) as (t' & T' & M' & O' & S' & C' & D'). exists t'. split; [assumption|]. split; [congruence|]. split; [congruence|]. split; [congruence|].
  destruct D' as [->| ->]; [assumption|discriminate].
Qed.
Lemma open_apart s k m k' m' : open_at s k m -> open_at s k' m' -> m <> m' -> k <> k'.
Proof. intros (t & T & M & _) (t' & T' & M' & _) N ->. congruence. Qed.
Lemma open_not_mint s k m k' i : open_at s k m -> pmint s k' = Some i -> k <> k'.
Proof. intros (t & T & _) I ->. apply ptoken_data in T. apply pmint_data in I. destruct T, I. congruence. Qed.
Lemma open_unpack s k m : open_at s k m -> check_token s k m None = Ok tt.
Proof.
  intros (t & T & M & S). apply ptoken_data in T. destruct T as [T1 T2]. unfold check_token, unpack_token. rewrite T1, T2, Z.eqb_refl. cbn [check rbind]. rewrite S. cbn [check rbind negb Z.eqb Pos.eqb]. rewrite M, Z.eqb_refl. reflexivity.
Qed.
Lemma wallet_check s k m w : wallet s k m w -> check_token s k m (Some w) = Ok tt.
Proof.
  intros (t & T & M & S & O & _). apply ptoken_data in T. destruct T as [T1 T2]. unfold check_token, unpack_token. rewrite T1, T2, Z.eqb_refl. cbn [check rbind]. rewrite S. cbn [check rbind negb Z.eqb Pos.eqb]. rewrite M, O, !Z.eqb_refl. reflexivity.
Qed.

(** ** Token instructions that succeed *)
Lemma not_delegate t w : t_delegate t <> Some w -> is_delegate t w = false.
Proof. intros D. destruct (is_delegate t w) eqn:E; [|reflexivity]. apply is_delegate_true in E. congruence. Qed.
Lemma transfer_go s src dst auth amt m : wallet s src m auth -> open_at s dst m -> amt <= bal s src -> src = dst \/ bal s dst + amt < B64 ->
  exists s', p_transfer s src dst auth true amt = Ok s'.
Proof.
  intros (t & T & M & S & O & D) (t' & T' & M' & S') A R. unfold p_transfer. rewrite T, T'. cbn [ok_or rbind]. rewrite S, S', M, M', O, (not_delegate _ _ D), !Z.eqb_refl. cbn [andb orb negb check rbind].
  unfold bal in A, R. rewrite T in A. rewrite T' in R. replace (amt <=? t_amount t) with true by lia. cbn [check rbind]. destruct (Z.eqb_spec src dst) as [Q|Q]; [eauto|].
  replace (t_amount t' + amt <? B64) with true by lia. cbn [check rbind]. eauto.
Qed.
Lemma mint_go s m dst auth amt : minted_by s m auth -> open_at s dst m -> bal s dst + amt < B64 -> supply s m + amt < B64 -> exists s', p_mint_to s m dst auth true amt = Ok s'.
Proof.
  intros (i & I & A) (t & T & M & S) R1 R2. unfold p_mint_to. rewrite T, I. cbn [ok_or rbind]. rewrite S, M, A, !Z.eqb_refl. cbn [check rbind opt_eqb]. rewrite Z.eqb_refl. cbn [andb check rbind].
  unfold bal in R1. unfold supply in R2. rewrite T in R1. rewrite I in R2. replace (t_amount t + amt <? B64) with true by lia. replace (mi_supply i + amt <? B64) with true by lia. cbn [andb check rbind]. eauto.
Qed.
Lemma burn_go s src m auth amt a : wallet s src m auth -> minted_by s m a -> amt <= bal s src -> amt <= supply s m -> exists s', p_burn s src m auth true amt = Ok s'.
Proof.
  intros (t & T & M & S & O & D) (i & I & _) A R. unfold p_burn. rewrite T, I. cbn [ok_or rbind]. rewrite S, M, O, (not_delegate _ _ D), !Z.eqb_refl. cbn [orb negb check rbind].
  unfold bal in A. unfold supply in R. rewrite T in A. rewrite I in R. replace (amt <=? t_amount t) with true by lia. replace (amt <=? mi_supply i) with true by lia. cbn [orb check rbind]. eauto.
Qed.

(** ** Baskets *)
Inductive payable (s : pstore) (who : Z) : list Z -> list Z -> list Z -> Prop :=
| pay_nil : payable s who [] [] []
| pay_cons q src dst m qs srcs dsts : wallet s src m who -> open_at s dst m -> 0 <= q <= bal s src -> bal s dst + q < B64 ->
    ~ In src srcs -> ~ In src dsts -> ~ In dst srcs -> ~ In dst dsts -> payable s who qs srcs dsts -> payable s who (q :: qs) (src :: srcs) (dst :: dsts).
Lemma payable_frame s s' who qs srcs dsts : tok_frame s s' -> (forall k, In k srcs \/ In k dsts -> bal s' k = bal s k) -> payable s who qs srcs dsts -> payable s' who qs srcs dsts.
Proof.
  intros F B H. induction H as [|q src dst m qs srcs dsts W O A R N1 N2 N3 N4 H IH]; [constructor|].
  apply (pay_cons s' who q src dst m); try assumption; [eapply frame_wallet; eassumption|eapply frame_open; eassumption|rewrite B by (left; left; reflexivity); assumption|rewrite B by (right; left; reflexivity); assumption|].
  apply IH. intros k [K|K]; apply B; [left|right]; right; assumption.
Qed.
Lemma pay_step s s1 src dst q who qs srcs dsts : tx_frame s s1 [(src, - q); (dst, q)] [] -> ~ In src srcs -> ~ In src dsts -> ~ In dst srcs -> ~ In dst dsts -> payable s who qs srcs dsts -> payable s1 who qs srcs dsts.
Proof.
  intros (F & B & _) N1 N2 N3 N4 H. eapply payable_frame; [exact F| |exact H]. intros k K. rewrite B. cbn [net].
  destruct (Z.eqb_spec src k) as [->|]; [tauto|]. destruct (Z.eqb_spec dst k) as [->|]; [tauto|]. lia.
Qed.
Lemma basket_in_go who qs : forall s ua vs, mk_signer who = true -> payable s (mk who) qs ua vs -> exists s', basket_in s qs ua vs who = Ok s'.
Proof.
  induction qs as [|q qs IH]; intros s ua vs G H; inversion H as [|? u v m ? ua' vs' W O A R N1 N2 N3 N4 H']; subst; cbn [basket_in]; [eauto|].
  replace (0 <=? q) with true by lia. cbn [check rbind]. rewrite G. destruct (transfer_go s u v (mk who) q m W O ltac:(lia) ltac:(auto)) as (s1 & T). rewrite T. cbn [rbind].
  apply IH; [assumption|]. apply transfer_ok in T. destruct T as (T & _). eapply (pay_step s s1 u v q); eassumption.
Qed.
Lemma basket_out_go e pool nonce auth qs : forall s ua vs, pe_pda e pool nonce = Some (mk auth) -> payable s (mk auth) qs vs ua -> exists s', basket_out e s qs ua vs pool nonce auth = Ok s'.
Proof.
  induction qs as [|q qs IH]; intros s ua vs G H; inversion H as [|? v u m ? vs' ua' W O A R N1 N2 N3 N4 H']; subst; cbn [basket_out]; [eauto|].
  replace (0 <=? q) with true by lia. unfold seeds_ok, own_signature. rewrite G. cbn [check rbind ok_or opt_eqb]. rewrite Z.eqb_refl, orb_true_r.
  destruct (transfer_go s v u (mk auth) q m W O ltac:(lia) ltac:(auto)) as (s1 & T). rewrite T. cbn [rbind].
  apply IH; [assumption|]. apply transfer_ok in T. destruct T as (T & _). eapply (pay_step s s1 v u q); eassumption.
Qed.

(** ** Lists of fees *)
Definition total (l : list (Z * Z)) : Z := fold_right (fun p n => snd p + n) 0 l.
Lemma total_nonneg l : Forall (fun p => 0 <= snd p) l -> 0 <= total l.
Proof. induction 1; cbn [total fold_right] in *; [lia|]. unfold total in *. lia. Qed.
Lemma mint_each_go e l : forall s cx nonce, pe_pda e (cx_pool cx) nonce = Some (mk (cx_auth cx)) -> minted_by s (cx_mint cx) (mk (cx_auth cx)) ->
  Forall (fun p => 0 <= snd p) l -> Forall (fun p => open_at s (fst p) (cx_mint cx) /\ bal s (fst p) + total l < B64) l -> supply s (cx_mint cx) + total l < B64 -> exists s', mint_each e s l cx nonce = Ok s'.
Proof.
  induction l as [|[k q] l IH]; intros s cx nonce G M P O S; cbn [mint_each]; [eauto|]. inversion P as [|? ? P1 P2]; subst. inversion O as [|? ? [O1 O2] O3]; subst. cbn [fst snd] in *.
  pose proof (total_nonneg l P2) as TL. change (total ((k, q) :: l)) with (q + total l) in *.
  destruct (Z.ltb_spec 0 q).
  - unfold seeds_ok, own_signature. rewrite G. cbn [ok_or rbind opt_eqb]. rewrite Z.eqb_refl, orb_true_r. destruct (mint_go s (cx_mint cx) k (mk (cx_auth cx)) q M O1 ltac:(lia) ltac:(lia)) as (s1 & T). rewrite T. cbn [rbind].
    apply mint_ok in T. destruct T as ((F & B & SU) & _). apply IH; try assumption; [eapply frame_minted; eassumption| |rewrite SU; cbn [net]; rewrite Z.eqb_refl; lia].
    eapply Forall_impl; [|exact O3]. intros [k' q'] [A1 A2]. cbn [fst] in *. split; [eapply frame_open; eassumption|]. rewrite B. cbn [net]. destruct (k =? k'); lia.
  - apply IH; try assumption; [|lia]. eapply Forall_impl; [|exact O3]. intros [k' q'] [A1 A2]. cbn [fst] in *. split; [assumption|lia].
Qed.
Lemma fee_each_go who l : forall s pt m, mk_signer who = true -> wallet s pt m (mk who) -> Forall (fun p => 0 <= snd p) l -> total l <= bal s pt ->
  Forall (fun p => open_at s (fst p) m /\ (fst p = pt \/ bal s (fst p) + total l < B64)) l -> exists s', fee_each s pt l who = Ok s' /\ bal s pt - total l <= bal s' pt.
Proof.
  induction l as [|[k q] l IH]; intros s pt m G W P TB O; cbn [fee_each].
  { exists s. split; [reflexivity|]. cbn. lia. }
  inversion P as [|? ? P1 P2]; subst. inversion O as [|? ? [O1 O2] O3]; subst. cbn [fst snd] in *.
  pose proof (total_nonneg l P2) as TL. change (total ((k, q) :: l)) with (q + total l) in *.
  destruct (Z.ltb_spec 0 q).
  - rewrite G. destruct (transfer_go s pt k (mk who) q m W O1 ltac:(lia)) as (s1 & T). { destruct O2 as [->|O2]; [left; reflexivity|right; lia]. }
    rewrite T. cbn [rbind]. apply transfer_ok in T. destruct T as ((F & B & SU) & _). pose proof (B pt) as BP. cbn [net] in BP. rewrite Z.eqb_refl in BP.
    destruct (IH s1 pt m G (frame_wallet _ _ _ _ _ F W) P2) as (s' & H1 & H2).
    + destruct (k =? pt); lia.
    + eapply Forall_impl; [|exact O3]. intros [k' q'] [A1 A2]. cbn [fst] in *. split; [eapply frame_open; eassumption|]. destruct A2 as [A2|A2]; [left; assumption|right]. rewrite B. cbn [net]. destruct (pt =? k'), (k =? k'); lia.
    + exists s'. split; [assumption|]. destruct (k =? pt); lia.
  - destruct (IH s pt m G W P2 ltac:(lia)) as (s' & H1 & H2); [|exists s'; split; [assumption|lia]].
    eapply Forall_impl; [|exact O3]. intros [k' q'] [A1 A2]. cbn [fst] in *. split; [assumption|]. destruct A2; [left; assumption|right; lia].
Qed.

(** ** The call *)
Lemma nexts_go (l r : list meta) n : length l = n -> nexts (l ++ r) n = Ok (l, r).
Proof.
  intros L. unfold nexts. rewrite app_length, L. replace (n <=? n + length r)%nat with true by (symmetry; apply Nat.leb_le; lia).
  rewrite firstn_app, skipn_app, <- L, firstn_all, skipn_all, Nat.sub_diag, app_nil_r. reflexivity.
Qed.
Lemma check_all_go {X Y} (f : X -> Y -> res unit) l l' : Forall2 (fun x y => f x y = Ok tt) l l' -> check_all f l l' = Ok tt.
Proof. induction 1 as [|x y l l' H F IH]; [reflexivity|]. cbn [check_all]. rewrite H. exact IH. Qed.
Lemma address_go k : check_address k k = Ok tt.
Proof. unfold check_address. rewrite Z.eqb_refl. reflexivity. Qed.
Lemma minter_go s m g : minted_by s m g -> check_minter s m g = Ok tt.
Proof. intros (i & I & A). apply pmint_data in I. destruct I as [I1 I2]. unfold check_minter, unpack_mint. rewrite I1, I2, Z.eqb_refl. cbn [check rbind]. rewrite A. cbn [opt_eqb]. rewrite Z.eqb_refl. reflexivity. Qed.
Lemma len_firstn {X} n (l : list X) k : length (firstn n l) = k -> k = n -> length (firstn n l) = n. Proof. congruence. Qed.
Definition call_ctx (c : call) (rest : list meta) : ctx :=
  mkCtx (mk (ca_pool c)) (mk (ca_mint c)) (map mk (ca_vaults c)) (ca_auth c) None (Some (mk (ca_pt c), map mk (ca_user c), ca_who c)) (Some (mk (ca_lqd c), mk (ca_ini c), mk (ca_ref c))) rest.
Lemma context_go s st c a : prepared s st c -> context_new s (call_metas c) st (RExecute a) = Ok (call_ctx c (skipn (length (ps_params st)) (ca_rest c))).
Proof.
  intros [C PA AS AP PT LQ IN RE SI]. destruct C as [C1 C2 C3 C4 C5 C6 C7 C8 C9]. unfold context_new, call_metas. cbn [next rbind].
  assert (LV : length (ca_vaults c) = length (ps_assets st)) by (rewrite <- (map_length mk), C2, map_length; reflexivity).
  rewrite (nexts_go _ _ _ LV). cbn [next rbind]. rewrite C1, address_go. cbn [rbind]. rewrite (minter_go s (ps_mint st) (ps_signer st) C8). cbn [rbind].
  rewrite check_all_go.
  2:{ assert (WV : Forall (fun x => wallet s (as_vault x) (as_mint x) (ps_signer st)) (ps_assets st)) by (clear -AS; induction AS as [|x u l l' (_ & W & _) F IH]; constructor; assumption).
      clear -C2 WV. revert C2. generalize (ca_vaults c). induction WV as [|x l W WV IH]; intros [|v vs] C2; try discriminate; constructor.
      - injection C2 as C2 _. rewrite C2, address_go. cbn [rbind]. apply wallet_check. assumption.
      - apply IH. injection C2 as _ C2. assumption. }
  cbn [rbind]. rewrite C4, address_go. cbn [rbind next]. rewrite (nexts_go _ _ _ C3). cbn [rbind next]. unfold check_user. rewrite (open_unpack _ _ _ PT). cbn [rbind].
  rewrite check_all_go.
  2:{ clear -AS. induction AS as [|x u l l' (_ & _ & W & _) F IH]; cbn [map]; constructor; [apply open_unpack; assumption|assumption]. }
  cbn [rbind]. unfold check_fees. rewrite C5, C6, !address_go. cbn [rbind]. rewrite (wallet_check _ _ _ _ LQ), (open_unpack _ _ _ IN), (open_unpack _ _ _ RE). cbn [rbind].
  assert (LP : length (firstn (length (ps_params st)) (ca_rest c)) = length (ps_params st)) by (rewrite <- (map_length mk), <- PA, map_length; reflexivity).
  rewrite <- (firstn_skipn (length (ps_params st)) (ca_rest c)) at 1. rewrite (nexts_go _ _ _ LP). cbn [rbind]. rewrite C7, address_go. cbn [rbind].
  rewrite check_all_go; [unfold call_ctx; rewrite C1, C5, C6; reflexivity|].
  clear -PA. revert PA. generalize (firstn (length (ps_params st)) (ca_rest c)). induction (ps_params st) as [|p ps IH]; intros [|x xs] PA; try discriminate; constructor.
  - injection PA as -> _. apply address_go.
  - apply IH. injection PA as _ PA. assumption.
Qed.

Lemma simple_basket_go s cx n up i : pmint s (cx_mint cx) = Some i -> 0 < supply s (cx_mint cx) < B64 -> 0 <= n < B64 ->
  Forall (fun v => (exists m, open_at s v m) /\ 0 <= bal s v < B64 /\ portion up (bal s v) n (supply s (cx_mint cx)) <= I64_MAX) (cx_vaults cx) ->
  simple_basket s cx n up = Ok (map (fun v => portion up (bal s v) n (supply s (cx_mint cx))) (cx_vaults cx)).
Proof.
  intros M SP N F. unfold simple_basket, supply in *. rewrite M in *. assert (U : unpack_mint s (cx_mint cx) = Ok i) by (unfold unpack_mint; apply pmint_data in M; destruct M as [_ ->]; reflexivity).
  rewrite U. cbn [rbind]. replace (mi_supply i =? 0) with false by lia. cbn [negb check rbind]. clear U M.
  induction F as [|v vs ((m & t & T & TM & TS) & B & Q) F IH]; [reflexivity|]. cbn [map].
  assert (BV : bal s v = t_amount t) by (unfold bal; rewrite T; reflexivity).
  assert (UT : unpack_token s v = Ok t) by (unfold unpack_token; apply ptoken_data in T; destruct T as [_ ->]; rewrite TS; reflexivity).
  rewrite UT. cbn [rbind]. rewrite <- BV. assert (LM : 0 <= bal s v * n <= (B64 - 1) * (B64 - 1)) by nia.
  replace (bal s v * n <? B128) with true by (symmetry; apply Z.ltb_lt; lia). cbn [check rbind].
  replace (bal s v * n + (if up then mi_supply i - 1 else 0) <? B128) with true by (symmetry; apply Z.ltb_lt; destruct up; lia). cbn [check rbind].
  assert (PQ : (bal s v * n + (if up then mi_supply i - 1 else 0)) / mi_supply i = portion up (bal s v) n (mi_supply i)).
  { unfold portion. destruct up; [apply ceil_plus; lia|rewrite Z.add_0_r; reflexivity]. }
  rewrite PQ. replace (portion up (bal s v) n (mi_supply i) <=? I64_MAX) with true by lia. cbn [check rbind]. rewrite IH. reflexivity.
Qed.
Lemma portion_nonneg up b n sup : 0 <= b -> 0 <= n -> 0 < sup -> 0 <= portion up b n sup.
Proof.
  intros B N S. unfold portion. assert (0 <= b * n) by nia. destruct up; [|apply Z.div_pos; lia]. pose proof (ceil_spec (b * n) sup S). nia.
Qed.

Lemma net_other qs : forall ua vs k, ~ In k ua -> ~ In k vs -> net (in_moves qs ua vs) k = 0.
Proof.
  induction qs as [|q qs IH]; intros [|u ua] [|v vs] k N1 N2; try reflexivity. cbn [in_moves net]. cbn [In] in N1, N2. rewrite IH by tauto.
  destruct (Z.eqb_spec u k); [tauto|]. destruct (Z.eqb_spec v k); [tauto|]. lia.
Qed.
Lemma apart_cons (x y : Z) l l' : NoDup ((x :: l) ++ y :: l') -> ~ In x l /\ ~ In x l' /\ ~ In y l /\ ~ In y l' /\ NoDup (l ++ l').
Proof.
  intros H. cbn [app] in H. inversion H as [|? ? H1 H2]; subst. pose proof (NoDup_remove_1 _ _ _ H2). pose proof (NoDup_remove_2 _ _ _ H2) as H3. rewrite in_app_iff in *. cbn [In] in H1. tauto.
Qed.
Section Go.
Variables (e : penv) (P : impl).
Hypothesis EOK : penv_ok e.
Hypothesis STD : standard e P.
Lemma load_go s k st : pool_at e s k st -> load_state e s k = Ok (Some st).
Proof.
  intros (Q & b & r & D & B & G). unfold load_state. rewrite Q, Z.eqb_refl, D. cbn [check rbind]. destruct (forallb _ b) eqn:Z0; [|rewrite G; reflexivity].
  exfalso. apply (state_not_blank e b st r G). apply zeros. assumption.
Qed.
Lemma save_go s k st : pool_at e s k st -> exists s', save_state s k st = Ok s'.
Proof.
  intros PK. pose proof (pool_wf e s k st PK) as W. destruct PK as (Q & b & r & D & B & G). unfold save_state. rewrite D.
  destruct (proj2 (state_ok e) b st r B G) as (_ & BE & _). assert (L : lengths_ok st = true).
  { destruct W. unfold lengths_ok. cbn [forallb]. unfold wf_name, len32 in *. change (2 ^ 32) with 4294967296. repeat match goal with H : _ /\ _ |- _ => destruct H end. lia. }
  rewrite L. replace (zlen (put_state st) <=? zlen b) with true; [cbn [andb check rbind]; eauto|].
  symmetry. apply Z.leb_le. rewrite BE. unfold zlen. rewrite app_length. lia.
Qed.
Lemma fees_go cx st n pt ua who lqd ini ref : 150 <= ps_rate st < 1000000 -> 0 <= n <= I64_MAX -> cx_user cx = Some (pt, ua, who) -> cx_fees cx = Some (lqd, ini, ref) -> get_fees cx st n = Ok (charged (ps_rate st) n pt lqd ini ref).
Proof.
  intros R N U F. unfold get_fees. unfold I64_MAX in N. rewrite fees_of_spec by (unfold u64; lia). replace ((ps_rate st <? 150) || (1000000 <=? ps_rate st)) with false by lia.
  destruct (shares_split (ps_rate st) n R ltac:(lia)) as (_ & W & _). replace (whole_fee (ps_rate st) n * 2 <? B64) with true by lia. cbn [rbind]. rewrite U, F. unfold charged. 
  destruct (lqd =? pt), (ini =? pt), (ref =? pt); reflexivity.
Qed.
Lemma create_basket s cx st n : running P st -> im_create P s cx st n = simple_basket s cx n true.
Proof.
  intros [R|R]; [rewrite R; reflexivity|]. destruct STD as [Q|Q]; rewrite Q; cbn [im_create default_impl admin_impl]; [reflexivity|]. unfold admin_basket. rewrite (flag_read _ _ R). reflexivity.
Qed.
Lemma redeem_basket s cx st n : running P st -> im_redeem P s cx st n = simple_basket s cx n false.
Proof.
  intros [R|R]; [rewrite R; reflexivity|]. destruct STD as [Q|Q]; rewrite Q; cbn [im_redeem default_impl admin_impl]; [reflexivity|]. unfold admin_basket. rewrite (flag_read _ _ R). reflexivity.
Qed.
Lemma vaults_of s st c : prepared s st c -> map mk (ca_vaults c) = map as_vault (ps_assets st).
Proof. intros C. apply C. Qed.
Lemma vault_facts s st c : prepared s st c -> Forall (fun v => (exists m, open_at s v m) /\ bal s v < B64 /\ exists m, m <> ps_mint st /\ wallet s v m (ps_signer st)) (map as_vault (ps_assets st)).
Proof.
  intros C. pose proof (pr_assets _ _ _ C) as A. induction A as [|x u l l' (N & W & O & B) F IH]; cbn [map]; constructor; [|assumption].
  split; [eexists; eapply wallet_open; eassumption|]. split; [assumption|]. eauto.
Qed.
Lemma asset_apart s st c k : prepared s st c -> open_at s k (ps_mint st) -> ~ In k (map mk (ca_user c)) /\ ~ In k (map as_vault (ps_assets st)).
Proof.
  intros C O. pose proof (pr_assets _ _ _ C) as A. induction A as [|x u l l' (N & W & O' & B) F IH]; cbn [map In]; [tauto|]. destruct IH as [I1 I2]. split; intros [H|H]; try tauto; subst.
  - apply (open_apart s _ _ _ _ O' O N). reflexivity.
  - apply (open_apart s _ _ _ _ (wallet_open _ _ _ _ W) O N). reflexivity.
Qed.
Lemma sums_go st c n : 150 <= ps_rate st < 1000000 -> 0 <= n < B64 ->
  let f := pool_fee st c n in 0 <= fe_lqd f /\ 0 <= fe_init f /\ 0 <= fe_ref f /\ 0 <= fee_sum f <= n /\ wsub n (total_fee f) = n - fee_sum f.
Proof.
  intros R N. cbv zeta. unfold pool_fee, fee_sum.
  destruct (charged_bounds (ps_rate st) n (mk (ca_pt c)) (ps_lqd st) (ps_init st) (mk (ca_ref c)) R N) as (F1 & F2 & F3 & F4 & F5).
  split; [lia|]. split; [lia|]. split; [lia|]. split; [lia|]. unfold wsub, w64. rewrite F5. apply Z.mod_small. lia.
Qed.

(** A creation goes through. *)
Lemma creation_goes s st c n : preach e P s -> running P st -> pool_at e s (mk (ca_pool c)) st -> prepared s st c -> 0 <= n <= I64_MAX -> 0 < supply s (ps_mint st) -> supply s (ps_mint st) + n < B64 ->
  Forall2 (fun a u => let q := portion true (bal s (as_vault a)) n (supply s (ps_mint st)) in wallet s (mk u) (as_mint a) (mk (ca_who c)) /\ q <= bal s (mk u) /\ q <= I64_MAX /\ room s (as_vault a) q) (ps_assets st) (ca_user c) ->
  room s (ps_lqd st) n -> room s (ps_init st) n -> room s (mk (ca_ref c)) n -> room s (mk (ca_pt c)) n ->
  exists s', pool_entry e P s (call_metas c) (put_request (RExecute (Create n))) = Ok s'.
Proof.
  intros RE RU PK C N S0 S1 A R1 R2 R3 R4. pose proof (preach_ok e P EOK STD s RE) as [SO PO]. destruct (PO _ _ PK) as (PD & MI & RA).
  assert (N' : 0 <= n < B64) by (unfold I64_MAX in N; lia).
  unfold pool_entry. rewrite (tagged _ _ eq_refl). rewrite (proj1 (whole_ok _ _ _ (request_ok e))) by exact N'. cbn [ok_or rbind]. unfold process_request.
  change (next (call_metas c)) with (Ok (ca_pool c, tl (call_metas c))). cbn [rbind]. rewrite (load_go _ _ _ PK). cbn [rbind]. rewrite (context_go s st c (Create n) C). cbn [rbind].
  set (cx := call_ctx c _). assert (X1 : cx_mint cx = ps_mint st) by apply C. assert (X2 : cx_vaults cx = map as_vault (ps_assets st)) by (apply vaults_of with (1 := C)).
  assert (X3 : cx_user cx = Some (mk (ca_pt c), map mk (ca_user c), ca_who c)) by reflexivity.
  assert (X4 : cx_fees cx = Some (ps_lqd st, ps_init st, mk (ca_ref c))) by (cbn [cx call_ctx cx_fees]; rewrite (co_lqd _ _ _ (pr_call _ _ _ C)), (co_ini _ _ _ (pr_call _ _ _ C)); reflexivity).
  assert (X5 : mk (cx_auth cx) = ps_signer st) by apply C. assert (X6 : cx_pool cx = mk (ca_pool c)) by reflexivity. clearbody cx.
  destruct MI as (i & I1 & I2).
  assert (PC : exists s1, process_creation e P s cx st n = Ok s1).
  { unfold process_creation. rewrite create_basket by assumption. rewrite (simple_basket_go s cx n true i); [|rewrite X1; assumption|rewrite X1; lia|assumption|].
    2:{ rewrite X1, X2. pose proof (vault_facts s st c C) as VF. assert (LU : Forall (fun a => portion true (bal s (as_vault a)) n (supply s (ps_mint st)) <= I64_MAX) (ps_assets st)) by (clear -A; induction A as [|x u l l' (_ & _ & L & _) F IH]; constructor; assumption).
        rewrite Forall_forall in *. intros v V. destruct (VF v V) as (V1 & V2 & _). split; [assumption|]. split; [split; [apply SO|assumption]|]. apply in_map_iff in V. destruct V as (a & <- & V). apply LU. assumption. }
    cbn [rbind]. rewrite X3, X1, X2, map_map.
    assert (PY : payable s (mk (ca_who c)) (map (fun a => portion true (bal s (as_vault a)) n (supply s (ps_mint st))) (ps_assets st)) (map mk (ca_user c)) (map as_vault (ps_assets st))).
    { pose proof (pr_apart _ _ _ C) as ND. pose proof (pr_assets _ _ _ C) as PA. revert ND PA. clear -A SO N S0. induction A as [|x u l l' (W & Q1 & Q2 & Q3) F IH]; intros ND PA; cbn [map]; [constructor|].
      inversion PA as [|? ? ? ? (_ & WV & _) PA']; subst. cbn [map] in ND. apply apart_cons in ND. destruct ND as (D1 & D2 & D3 & D4 & D5).
      apply (pay_cons s _ _ _ _ (as_mint x)); try assumption; [eapply wallet_open; eassumption| |apply IH; assumption].
      split; [apply portion_nonneg; [apply SO|lia|assumption]|assumption]. }
    destruct (basket_in_go (ca_who c) _ s _ _ (pr_sign _ _ _ C) PY) as (s1 & B). rewrite B. cbn [rbind]. apply basket_in_ok in B. destruct B as ((F & BA & SU) & _).
    unfold mint_tokens. rewrite (fees_go cx st n _ _ _ _ _ _ RA N X3 X4). cbn [rbind]. rewrite X3, X4. fold (pool_fee st c n). destruct (sums_go st c n RA N') as (F1 & F2 & F3 & F4 & ->).
    assert (KEEP : forall k, open_at s k (ps_mint st) -> open_at s1 k (cx_mint cx) /\ bal s1 k = bal s k).
    { intros k O. split; [rewrite X1; eapply frame_open; eassumption|]. rewrite BA, net_other; [lia| |]; apply (asset_apart s st c k C O). }
    destruct (KEEP _ (wallet_open _ _ _ _ (pr_lqd _ _ _ C))) as [K1 L1]. destruct (KEEP _ (pr_ini _ _ _ C)) as [K2 L2]. destruct (KEEP _ (pr_ref _ _ _ C)) as [K3 L3]. destruct (KEEP _ (pr_pt _ _ _ C)) as [K4 L4]. unfold room in *.
    apply mint_each_go.
    - rewrite X6, X5. exact PD.
    - rewrite X1, X5. apply (frame_minted s s1); [assumption|]. exists i. auto.
    - repeat constructor; cbn [snd]; lia.
    - cbn [total fold_right snd]. unfold fee_sum in *. repeat constructor; cbn [fst]; try assumption; lia.
    - rewrite X1, SU. cbn [net total fold_right snd]. unfold fee_sum in *. lia. }
  destruct PC as (s1 & PC). rewrite PC. cbn [rbind]. assert (PK1 : pool_at e s1 (mk (ca_pool c)) st).
  { apply (create_ok e P STD s cx st n s1 c) in PC; try assumption; [|apply SO|apply C]. destruct PC as (_ & _ & (F & _) & _). eapply frame_pool; eassumption. }
  apply save_go. assumption.
Qed.

(** A redemption goes through. *)
Lemma redemption_goes s st c n : preach e P s -> running P st -> pool_at e s (mk (ca_pool c)) st -> prepared s st c -> 0 <= n <= I64_MAX -> n <= supply s (ps_mint st) < B64 -> 0 < supply s (ps_mint st) ->
  wallet s (mk (ca_pt c)) (ps_mint st) (mk (ca_who c)) -> n <= bal s (mk (ca_pt c)) ->
  Forall2 (fun a u => let q := portion false (bal s (as_vault a)) (n - fee_sum (pool_fee st c n)) (supply s (ps_mint st)) in q <= I64_MAX /\ room s (mk u) q) (ps_assets st) (ca_user c) ->
  room s (ps_lqd st) n -> room s (ps_init st) n -> mk (ca_ref c) = mk (ca_pt c) \/ room s (mk (ca_ref c)) n ->
  exists s', pool_entry e P s (call_metas c) (put_request (RExecute (Redeem n))) = Ok s'.
Proof.
  intros RE RU PK C N S0 S1 WP BP A R1 R2 R3. pose proof (preach_ok e P EOK STD s RE) as [SO PO]. destruct (PO _ _ PK) as (PD & MI & RA).
  assert (N' : 0 <= n < B64) by (unfold I64_MAX in N; lia).
  unfold pool_entry. rewrite (tagged _ _ eq_refl). rewrite (proj1 (whole_ok _ _ _ (request_ok e))) by exact N'. cbn [ok_or rbind]. unfold process_request.
  change (next (call_metas c)) with (Ok (ca_pool c, tl (call_metas c))). cbn [rbind]. rewrite (load_go _ _ _ PK). cbn [rbind]. rewrite (context_go s st c (Redeem n) C). cbn [rbind].
  set (cx := call_ctx c _). assert (X1 : cx_mint cx = ps_mint st) by apply C. assert (X2 : cx_vaults cx = map as_vault (ps_assets st)) by (apply vaults_of with (1 := C)).
  assert (X3 : cx_user cx = Some (mk (ca_pt c), map mk (ca_user c), ca_who c)) by reflexivity.
  assert (X4 : cx_fees cx = Some (ps_lqd st, ps_init st, mk (ca_ref c))) by (cbn [cx call_ctx cx_fees]; rewrite (co_lqd _ _ _ (pr_call _ _ _ C)), (co_ini _ _ _ (pr_call _ _ _ C)); reflexivity).
  assert (X5 : mk (cx_auth cx) = ps_signer st) by apply C. assert (X6 : cx_pool cx = mk (ca_pool c)) by reflexivity. clearbody cx.
  destruct (sums_go st c n RA N') as (F1 & F2 & F3 & F4 & FW). pose proof MI as (i & I1 & I2).
  assert (PC : exists s1, process_redemption e P s cx st n = Ok s1).
  { unfold process_redemption. rewrite (fees_go cx st n _ _ _ _ _ _ RA N X3 X4). cbn [rbind]. fold (pool_fee st c n). rewrite FW.
    rewrite redeem_basket by assumption. rewrite (simple_basket_go s cx _ false i); [|rewrite X1; assumption|rewrite X1; lia|lia|].
    2:{ rewrite X1, X2. pose proof (vault_facts s st c C) as VF. assert (LU : Forall (fun a => portion false (bal s (as_vault a)) (n - fee_sum (pool_fee st c n)) (supply s (ps_mint st)) <= I64_MAX) (ps_assets st)) by (clear -A; induction A as [|x u l l' (L & _) F IH]; constructor; assumption).
        rewrite Forall_forall in *. intros v V. destruct (VF v V) as (V1 & V2 & _). split; [assumption|]. split; [split; [apply SO|assumption]|]. apply in_map_iff in V. destruct V as (a & <- & V). apply LU. assumption. }
    cbn [rbind]. unfold burn_and_fees. rewrite X3, X4, X1, X2, map_map.
    destruct (fee_each_go (ca_who c) [(ps_lqd st, fe_lqd (pool_fee st c n)); (ps_init st, fe_init (pool_fee st c n)); (mk (ca_ref c), fe_ref (pool_fee st c n))] s (mk (ca_pt c)) (ps_mint st) (pr_sign _ _ _ C) WP) as (s1 & H1 & H2).
    { repeat constructor; cbn [snd]; lia. }
    { cbn [total fold_right snd]. unfold fee_sum in *. lia. }
    { cbn [total fold_right snd]. unfold fee_sum, room in *. constructor; [|constructor; [|constructor; [|constructor]]]; cbn [fst].
      - split; [eapply wallet_open; apply C|right; lia].
      - split; [apply C|right; lia].
      - split; [apply C|destruct R3; [left; assumption|right; lia]]. }
    rewrite H1. cbn [rbind]. cbn [total fold_right snd] in H2. apply fee_each_ok in H1; [|repeat constructor; cbn [snd]; lia].
    destruct H1 as (G1 & B1 & U1). rewrite (pr_sign _ _ _ C).
    destruct (burn_go s1 (mk (ca_pt c)) (ps_mint st) (mk (ca_who c)) (n - fee_sum (pool_fee st c n)) (ps_signer st)) as (s2 & H3).
    { eapply frame_wallet; eassumption. }
    { eapply frame_minted; eassumption. }
    { unfold fee_sum in *. lia. }
    { rewrite U1. cbn [net]. lia. }
    rewrite H3. cbn [rbind]. apply burn_ok in H3. destruct H3 as ((G2 & B2 & U2) & _).
    pose proof (frame_trans _ _ _ G1 G2) as G. apply basket_out_go.
    - rewrite X6, X5. exact PD.
    - rewrite X5. apply (payable_frame s s2); [assumption| |].
      + intros k K. rewrite B2, B1. cbn [flat_map app fst snd net].
        assert (NK : forall k', open_at s k' (ps_mint st) -> (k' =? k) = false).
        { intros k' O. destruct (asset_apart s st c k' C O) as [Q1 Q2]. destruct (Z.eqb_spec k' k) as [->|]; [tauto|reflexivity]. }
        rewrite !NK; [lia| | | |]; try apply C. eapply wallet_open. apply C.
      + pose proof (pr_apart _ _ _ C) as ND. pose proof (pr_assets _ _ _ C) as PA. revert ND PA. clear -A SO N S0 S1 F4. assert (M0 : 0 <= n - fee_sum (pool_fee st c n) <= supply s (ps_mint st)) by lia. generalize dependent (n - fee_sum (pool_fee st c n)). intros m A M0.
        induction A as [|x u l l' (Q1 & Q2) F IH]; intros ND PA; cbn [map]; [constructor|].
        inversion PA as [|? ? ? ? (_ & WV & OU & _) PA']; subst. cbn [map] in ND. apply apart_cons in ND. destruct ND as (D1 & D2 & D3 & D4 & D5).
        apply (pay_cons s _ _ _ _ (as_mint x)); try assumption; [|apply IH; assumption].
        split; [apply portion_nonneg; [apply SO|lia|assumption]|]. unfold portion. pose proof (so_bal e s SO (as_vault x)). apply Z.div_le_upper_bound; nia. }
  destruct PC as (s1 & PC). rewrite PC. cbn [rbind]. assert (PK1 : pool_at e s1 (mk (ca_pool c)) st).
  { apply (redeem_ok e P STD s cx st n s1 c) in PC; try assumption; [|apply SO|apply C]. cbv zeta in PC. destruct PC as (_ & _ & _ & _ & (F & _) & _). eapply frame_pool; eassumption. }
  apply save_go. assumption.
Qed.
End Go.

(** ** The pool without an administrator *)
Section Simple.
Variable e : penv.
Hypothesis EOK : penv_ok e.
Let P := default_impl.
Lemma STDS : standard e P. Proof. left. reflexivity. Qed.
Definition plain (st : pstate) : Prop := ps_admin st = None /\ ps_params st = [] /\ ps_custom st = [].
Lemma plain_tx s s' ms b : pools_ok e s -> (forall k st, pool_at e s k st -> plain st) -> honest e ms b -> pool_entry e P s ms b = Ok s' -> forall k st, pool_at e s' k st -> plain st.
Proof.
  intros [SO PO] PL HO H k st PK. apply (effect_of e P STDS) in H; try assumption.
  destruct H as [k0 st0 b0 _ _ M0 PK0 PD BL WF LE PA MI RA (cx & st1 & I & IA) ->|a d st0 k0 n act cx bk WQ PK0 HD NS NP ACT ->|st0 c cx n s1 WQ MS PK0 N CO X1 X2 X3 X4 CR GE|st0 c cx n s1 WQ MS PK0 N CO X1 X2 X3 X4 CR GE|WQ FO].
  - destruct (Z.eq_dec k0 k) as [<-|NK].
    + assert (st = st0) as -> by (eapply pool_at_fun; [eassumption|apply pool_saved; try assumption; eapply so_bytes; eassumption]). cbn [P im_init default_impl] in I. injection I as <-. exact IA.
    + apply pool_other in PK; [|assumption]. eauto.
  - destruct (Z.eq_dec a k) as [<-|NK].
    + exfalso. destruct PK as [PK _]. rewrite pget_pset, Z.eqb_refl in PK. cbn [pa_prog] in PK. contradiction.
    + apply pool_other in PK; [|assumption]. eauto.
  - apply (create_ok e P STDS s cx st0 n s1 c) in CR; try assumption; [|apply SO]. destruct CR as (_ & _ & (F & _) & _). apply (PL k). eapply frame_pool_back; [eapply frame_get; eassumption|assumption].
  - apply (redeem_ok e P STDS s cx st0 n s1 c) in CR; try assumption; [|apply SO]. cbv zeta in CR. destruct CR as (_ & _ & _ & _ & (F & _) & _). apply (PL k). eapply frame_pool_back; [eapply frame_get; eassumption|assumption].
  - discriminate.
Qed.
Lemma env_back s s' k st : rely e s s' -> pool_at e s' k st -> pool_at e s k st.
Proof.
  intros [R1 R2 R3 R4 R5] (Q & b & r & D & B & G). destruct (Z.eq_dec (pa_prog (pget s k)) (pe_prog e)) as [QQ|QQ].
  - destruct (R2 _ QQ) as [_ DD]. split; [assumption|]. exists b, r. split; [congruence|auto].
  - destruct (R3 _ Q QQ) as (n & DD). exfalso. apply (state_not_blank e b st r G). assert (b = repeat 0 n) as -> by congruence. apply Forall_forall. intros x X. apply repeat_spec in X. assumption.
Qed.
Lemma always_plain s : preach e P s -> forall k st, pool_at e s k st -> plain st.
Proof.
  induction 1 as [s [SO BG]|s s' R IH ST]; intros k st PK.
  - exfalso. destruct PK as (Q & b & r & D & B & G). destruct (BG _ Q) as (n & DD). apply (state_not_blank e b st r G). assert (b = repeat 0 n) as -> by congruence. apply Forall_forall. intros x X. apply repeat_spec in X. assumption.
  - destruct ST as [ms b HO H|H]; [|eapply IH; eapply env_back; eassumption]. eapply plain_tx; try eassumption. eapply preach_ok; try eassumption. apply STDS.
Qed.
Lemma later_user s s' st : ps_admin st = None -> later e P s s' -> user_steps e P st s s'.
Proof.
  intros A L. induction L as [|s1 s' L IH ST]; [constructor|]. destruct ST as [ms b HO H|H]; [|eapply Us_env; eassumption]. eapply Us_tx; try eassumption. intros m M G. rewrite A. discriminate.
Qed.
Lemma no_ruler s s' k st : preach e P s -> pool_at e s k st -> later e P s s' ->
  pool_at e s' k st /\ plain st /\ (NoDup (vaults st) -> all_held s st -> all_held s' st /\ no_worse st s s').
Proof.
  intros R PK L. pose proof (always_plain s R k st PK) as PL. pose proof (later_user s s' st (proj1 PL) L) as U. pose proof (preach_ok e P EOK STDS s R) as OK.
  split; [apply (user_state e P EOK STDS st s s' k U OK PK)|]. split; [assumption|]. intros ND AH. eapply backing; try eassumption. apply STDS.
Qed.
End Simple.

(** ** The fee account of the pool's creator *)
Lemma fee_account_missing e P s ms b k st a s' : store_ok e s -> pool_at e s k st -> ptoken s (ps_init st) = None -> hd_error (map mk ms) = Some k -> whole (get_request e) b = Some (RExecute a) -> is_bytes b -> pool_entry e P s ms b <> Ok s'.
Proof.
  intros SO PK T HD W BB H. unfold pool_entry in H. destruct (proj2 (whole_ok _ _ _ (request_ok e)) b _ BB W) as [_ EB]. rewrite (tagged _ _ EB), W in H. cbn [ok_or rbind] in H. unfold process_request in H.
  apply rbind_ok in H. destruct H as ([pool r] & N%next_ok & H). assert (KP : mk pool = k) by (rewrite N in HD; cbn in HD; congruence). subst k.
  rewrite (load_go e s (mk pool) st PK) in H. cbn [rbind] in H. apply rbind_ok in H. destruct H as (cx & C & _). unfold context_new in C.
  do 4 (apply rbind_ok in C; destruct C as ([? ?] & _ & C)). do 4 (apply rbind_ok in C; destruct C as ([] & _ & C)). cbv zeta in C.
  do 6 (apply rbind_ok in C; destruct C as ([? ?] & _ & C)). apply rbind_ok in C. destruct C as ([] & _ & C). apply rbind_ok in C. destruct C as ([] & C6 & _).
  unfold check_fees in C6. apply rbind_ok in C6. destruct C6 as ([] & _ & C6). apply rbind_ok in C6. destruct C6 as ([] & D2%check_address_ok & C6). apply rbind_ok in C6. destruct C6 as ([] & _ & C6).
  apply rbind_ok in C6. destruct C6 as ([] & (t & T' & _)%check_token_ok & _). congruence.
Qed.
Lemma stopped e P s ms n k st s' : store_ok e s -> pool_at e s k st -> ptoken s (ps_init st) = None -> hd_error (map mk ms) = Some k -> u64 n ->
  pool_entry e P s ms (put_request (RExecute (Create n))) <> Ok s' /\ pool_entry e P s ms (put_request (RExecute (Redeem n))) <> Ok s'.
Proof.
  intros SO PK T HD N. pose proof (proj1 (whole_ok _ _ _ (request_ok e))) as W. 
  split; eapply fee_account_missing; try eassumption; try (apply W; exact N); unfold put_request; repeat (apply is_bytes_app; split); try apply is_bytes_le.
Qed.
