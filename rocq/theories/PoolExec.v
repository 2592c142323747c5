(** The exact effect of creating and redeeming pool tokens. *)
From Verif Require Import Base BaseProofs Fees Core Instr InstrProofs Store Borsh PoolStore Pool AdminPool BorshProofs PoolFees PoolFacts.

(** The accounts an Execute request is given, in their order. *)
Record call := mkCall {
  ca_pool : meta; ca_mint : meta; ca_vaults : list meta; ca_auth : meta; ca_pt : meta; ca_user : list meta; ca_who : meta;
  ca_lqd : meta; ca_ini : meta; ca_ref : meta; ca_spl : meta; ca_rest : list meta }.
Definition call_metas (c : call) : list meta :=
  ca_pool c :: ca_mint c :: ca_vaults c ++ ca_auth c :: ca_pt c :: ca_user c ++ ca_who c :: ca_lqd c :: ca_ini c :: ca_ref c :: ca_spl c :: ca_rest c.
(** They are the accounts the pool's state names. *)
Record call_ok (s : pstore) (st : pstate) (c : call) : Prop := mkCallOk {
  co_mint : mk (ca_mint c) = ps_mint st;
  co_vaults : map mk (ca_vaults c) = map as_vault (ps_assets st);
  co_user : length (ca_user c) = length (ps_assets st);
  co_auth : mk (ca_auth c) = ps_signer st;
  co_lqd : mk (ca_lqd c) = ps_lqd st;
  co_ini : mk (ca_ini c) = ps_init st;
  co_spl : mk (ca_spl c) = spl_id;
  co_minter : exists i, pmint s (ps_mint st) = Some i /\ mi_auth i = Some (ps_signer st);
  co_held : Forall (fun a => exists t, ptoken s (as_vault a) = Some t /\ t_mint t = as_mint a /\ (t_owner t = ps_signer st \/ t_delegate t = Some (ps_signer st))) (ps_assets st) }.

Lemma rbind_ok {A B} (x : res A) (f : A -> res B) b : rbind x f = Ok b -> exists a, x = Ok a /\ f a = Ok b.
Proof. destruct x; cbn; try discriminate. eauto. Qed.
Lemma check_ok b er : check b er = Ok tt -> b = true.
Proof. destruct b; [reflexivity|discriminate]. Qed.
Lemma check_address_ok a b : check_address a b = Ok tt -> a = b.
Proof. intros H%check_ok. lia. Qed.
Lemma check_minter_ok s k a : check_minter s k a = Ok tt -> exists i, pmint s k = Some i /\ mi_auth i = Some a.
Proof.
  unfold check_minter, unpack_mint. intros H. rstep H. rstep H. apply check_ok in H. apply opt_eqb_true in H.
  destruct (pa_data (pget s k)) eqn:D; try discriminate. injection E0 as ->. exists x. split; [|assumption]. apply pmint_data. split; [lia|assumption].
Qed.
Lemma check_token_ok s k m a : check_token s k m a = Ok tt ->
  exists t, ptoken s k = Some t /\ t_mint t = m /\ match a with Some a => t_owner t = a \/ t_delegate t = Some a | None => True end.
Proof.
  unfold check_token, unpack_token. intros H. rstep H. rstep H. rstep H. apply check_ok in H.
  destruct (pa_data (pget s k)) eqn:D; try discriminate. rstep E0. injection E0 as ->. exists x. split; [apply ptoken_data; split; [lia|assumption]|]. split; [lia|].
  destruct a; [|exact I]. apply orb_prop in H. destruct H as [H|H]; [left; lia|right; apply opt_eqb_true; assumption].
Qed.
Lemma check_all_ok {X Y} (f : X -> Y -> res unit) l : forall l', length l = length l' -> check_all f l l' = Ok tt -> Forall2 (fun x y => f x y = Ok tt) l l'.
Proof.
  induction l as [|x l IH]; intros [|y l'] L H; try discriminate; [constructor|]. cbn [check_all] in H. apply rbind_ok in H. destruct H as ([] & H1 & H2).
  constructor; [assumption|]. apply IH; [injection L as L; assumption|assumption].
Qed.
Lemma next_ok ms m r : next ms = Ok (m, r) -> ms = m :: r.
Proof. destruct ms; [discriminate|]. intros [= <- <-]. reflexivity. Qed.
Lemma nexts_ok ms n l r : nexts ms n = Ok (l, r) -> ms = l ++ r /\ length l = n.
Proof.
  unfold nexts. destruct (Nat.leb_spec n (length ms)) as [L|]; [|discriminate]. intros H. assert (l = firstn n ms) as -> by congruence. assert (r = skipn n ms) as -> by congruence.
  rewrite firstn_skipn, firstn_length. split; [reflexivity|lia].
Qed.
Ltac take H p := apply rbind_ok in H; destruct H as (p & ? & H).
Lemma context_exec s ms st a cx : context_new s ms st (RExecute a) = Ok cx ->
  exists c, ms = call_metas c /\ call_ok s st c /\
    cx_pool cx = mk (ca_pool c) /\ cx_mint cx = ps_mint st /\ cx_vaults cx = map as_vault (ps_assets st) /\ cx_auth cx = ca_auth c /\
    cx_user cx = Some (mk (ca_pt c), map mk (ca_user c), ca_who c) /\ cx_fees cx = Some (ps_lqd st, ps_init st, mk (ca_ref c)) /\
    (exists t, ptoken s (mk (ca_pt c)) = Some t /\ t_mint t = ps_mint st) /\ (exists t, ptoken s (ps_lqd st) = Some t /\ t_mint t = ps_mint st /\ (t_owner t = lqd_fee_owner \/ t_delegate t = Some lqd_fee_owner)).
Proof.
  intros H. unfold context_new in H.
  apply rbind_ok in H. destruct H as ([pool r1] & N1%next_ok & H).
  apply rbind_ok in H. destruct H as ([mint r2] & N2%next_ok & H).
  apply rbind_ok in H. destruct H as ([vaults r3] & [N3 L3]%nexts_ok & H).
  apply rbind_ok in H. destruct H as ([auth r4] & N4%next_ok & H).
  apply rbind_ok in H. destruct H as ([] & C1%check_address_ok & H).
  apply rbind_ok in H. destruct H as ([] & C2%check_minter_ok & H).
  apply rbind_ok in H. destruct H as ([] & C3%check_all_ok & H); [|lia].
  apply rbind_ok in H. destruct H as ([] & C4%check_address_ok & H). cbv zeta in H.
  apply rbind_ok in H. destruct H as ([pt r5] & N5%next_ok & H).
  apply rbind_ok in H. destruct H as ([ua r6] & [N6 L6]%nexts_ok & H).
  apply rbind_ok in H. destruct H as ([who r7] & N7%next_ok & H).
  apply rbind_ok in H. destruct H as ([lqd r8] & N8%next_ok & H).
  apply rbind_ok in H. destruct H as ([ini r9] & N9%next_ok & H).
  apply rbind_ok in H. destruct H as ([ref r10] & N10%next_ok & H).
  apply rbind_ok in H. destruct H as ([] & C5 & H).
  apply rbind_ok in H. destruct H as ([] & C6 & H).
  apply rbind_ok in H. destruct H as ([spl r11] & N11%next_ok & H).
  apply rbind_ok in H. destruct H as ([ps r12] & [N12 L12]%nexts_ok & H).
  apply rbind_ok in H. destruct H as ([] & C7%check_address_ok & H).
  apply rbind_ok in H. destruct H as ([] & _ & H). injection H as <-.
  unfold check_user in C5. apply rbind_ok in C5. destruct C5 as ([] & C5%check_token_ok & _).
  unfold check_fees in C6. apply rbind_ok in C6. destruct C6 as ([] & D1%check_address_ok & C6).
  apply rbind_ok in C6. destruct C6 as ([] & D2%check_address_ok & C6). apply rbind_ok in C6. destruct C6 as ([] & D3%check_token_ok & _).
  assert (V : map mk vaults = map as_vault (ps_assets st) /\
    Forall (fun a => exists t, ptoken s (as_vault a) = Some t /\ t_mint t = as_mint a /\ (t_owner t = ps_signer st \/ t_delegate t = Some (ps_signer st))) (ps_assets st)).
  { clear -C3. induction C3 as [|x y l l' H C3 IH]; [split; [reflexivity|constructor]|]. destruct IH as [I1 I2]. apply rbind_ok in H. destruct H as ([] & H1%check_address_ok & H2%check_token_ok).
    rewrite H1 in H2. split; [cbn [map]; congruence|]. constructor; [exact H2|assumption]. }
  destruct V as [V1 V2].
  exists (mkCall pool mint vaults auth pt ua who lqd ini ref spl (ps ++ r12)).
  unfold call_metas. cbn [ca_pool ca_mint ca_vaults ca_auth ca_pt ca_user ca_who ca_lqd ca_ini ca_ref ca_spl ca_rest cx_pool cx_mint cx_vaults cx_auth cx_user cx_fees].
  rewrite C1 in C2. rewrite D1 in D3. subst ms r1 r2 r3 r4 r5 r6 r7 r8 r9 r10 r11.
  split; [reflexivity|]. split; [constructor; assumption|]. destruct C5 as (t & T1 & T2 & _), D3 as (t' & T3 & T4 & T5).
  repeat split; try congruence; eauto 6.
Qed.

(** ** Baskets *)
Definition portion (round_up : bool) (total n sup : Z) : Z := if round_up then ceil_div (total * n) sup else total * n / sup.
Lemma simple_basket_ok s cx n up qs i : pmint s (cx_mint cx) = Some i -> (forall v, In v (cx_vaults cx) -> exists t, ptoken s v = Some t) -> 0 <= supply s (cx_mint cx) ->
  simple_basket s cx n up = Ok qs -> 0 < supply s (cx_mint cx) /\ qs = map (fun v => portion up (bal s v) n (supply s (cx_mint cx))) (cx_vaults cx).
Proof.
  intros M V S H. unfold simple_basket in H. unfold supply in *. rewrite M in *.
  assert (U : unpack_mint s (cx_mint cx) = Ok i) by (unfold unpack_mint; apply pmint_data in M; destruct M as [_ ->]; reflexivity).
  rewrite U in H. cbn [rbind] in H. rstep H. assert (S0 : 0 < mi_supply i) by lia. split; [assumption|]. clear E U M.
  revert qs H. induction (cx_vaults cx) as [|v vs IH]; intros qs H; [injection H as <-; reflexivity|].
  destruct (V v (or_introl eq_refl)) as (t & T). assert (B : bal s v = t_amount t) by (unfold bal; rewrite T; reflexivity).
  apply rbind_ok in H. destruct H as (t' & T' & H). assert (t' = t) as ->.
  { unfold unpack_token in T'. apply ptoken_data in T. destruct T as [_ D]. rewrite D in T'. rstep T'. injection T' as <-. reflexivity. }
  rstep H. rstep H. rstep H. apply rbind_ok in H. destruct H as (qs' & H' & H). injection H as <-. cbn [map]. f_equal; [|apply IH; [intros w W; apply V; right; assumption|assumption]].
  rewrite B. unfold portion. destruct up; [apply ceil_plus; assumption|rewrite Z.add_0_r; reflexivity].
Qed.

(** ** Requests that change balances *)
Section Exec.
Variables (e : penv) (P : impl).
(** The pool implementations that use the library's baskets. *)
Definition standard : Prop := P = default_impl \/ P = admin_impl e.
Hypothesis STD : standard.
Lemma std_create s cx st n qs : im_create P s cx st n = Ok qs -> simple_basket s cx n true = Ok qs.
Proof. destruct STD as [Q|Q]; rewrite Q; cbn [im_create im_redeem default_impl admin_impl]; intros H; [exact H|]. unfold admin_basket in H. rstep H. rstep H. exact H. Qed.
Lemma std_redeem s cx st n qs : im_redeem P s cx st n = Ok qs -> simple_basket s cx n false = Ok qs.
Proof. destruct STD as [Q|Q]; rewrite Q; cbn [im_create im_redeem default_impl admin_impl]; intros H; [exact H|]. unfold admin_basket in H. rstep H. rstep H. exact H. Qed.

Definition pool_fee (st : pstate) (c : call) (n : Z) : fees := charged (ps_rate st) n (mk (ca_pt c)) (ps_lqd st) (ps_init st) (mk (ca_ref c)).
Definition fee_sum (f : fees) : Z := fe_lqd f + fe_init f + fe_ref f.
(** The accounts and amounts of a creation of [n] pool tokens. *)
Definition create_moves (s : pstore) (st : pstate) (c : call) (n : Z) : list (Z * Z) :=
  let f := pool_fee st c n in
  in_moves (map (fun a => portion true (bal s (as_vault a)) n (supply s (ps_mint st))) (ps_assets st)) (map mk (ca_user c)) (map as_vault (ps_assets st)) ++
  [(ps_lqd st, fe_lqd f); (ps_init st, fe_init f); (mk (ca_ref c), fe_ref f); (mk (ca_pt c), n - fee_sum f)].
Lemma create_ok s cx st n s' c : u64 n -> 0 <= supply s (ps_mint st) -> call_ok s st c -> 
  cx_mint cx = ps_mint st -> cx_vaults cx = map as_vault (ps_assets st) ->
  cx_user cx = Some (mk (ca_pt c), map mk (ca_user c), ca_who c) -> cx_fees cx = Some (ps_lqd st, ps_init st, mk (ca_ref c)) ->
  process_creation e P s cx st n = Ok s' ->
  0 < supply s (ps_mint st) /\ 150 <= ps_rate st < 1000000 /\ tx_frame s s' (create_moves s st c n) [(ps_mint st, n)] /\
  (forall u, In u (map mk (ca_user c)) -> can_spend s u (mk (ca_who c))) /\ (ps_assets st <> [] -> mk_signer (ca_who c) = true) /\
  Forall (fun a => 0 <= portion true (bal s (as_vault a)) n (supply s (ps_mint st))) (ps_assets st).
Proof.
  intros N S0 C X1 X2 X3 X4 H. unfold process_creation in H. apply rbind_ok in H. destruct H as (qs & B & H). apply std_create in B.
  destruct (co_minter _ _ _ C) as (i & I1 & I2).
  apply (simple_basket_ok s cx n true qs i) in B; [| | |].
  2:{ rewrite X1. assumption. }
  2:{ intros v. rewrite X2. intros (a & <- & A)%in_map_iff. pose proof (proj1 (Forall_forall _ _) (co_held _ _ _ C) a A) as (t & T & _). eauto. }
  2:{ rewrite X1. assumption. }
  destruct B as [SP Q]. rewrite X1 in *. rewrite X2, map_map in Q. rewrite X3 in H. apply rbind_ok in H. destruct H as (s1 & B & H). rewrite X2 in B.
  apply basket_in_ok in B. destruct B as (T1 & B). destruct B as (B1 & B2 & B3).
  { rewrite Q, !map_length. symmetry. apply C. }
  { rewrite Q, !map_length. reflexivity. }
  unfold mint_tokens in H. apply rbind_ok in H. destruct H as (f & F & H). destruct (get_fees_spec _ _ _ _ _ _ _ _ _ _ N X3 X4 F) as (-> & R). fold (pool_fee st c n) in *.
  rewrite X3, X4 in H. destruct (charged_bounds (ps_rate st) n (mk (ca_pt c)) (ps_lqd st) (ps_init st) (mk (ca_ref c)) R ltac:(unfold u64 in N; lia)) as (F1 & F2 & F3 & F4 & F5).
  fold (pool_fee st c n) in *. unfold fee_sum in *.
  assert (W : wsub n (total_fee (pool_fee st c n)) = n - fee_sum (pool_fee st c n)).
  { unfold wsub, w64, fee_sum. rewrite F5. apply Z.mod_small. unfold u64 in N. lia. }
  rewrite W in H. apply mint_each_ok in H.
  2:{ repeat constructor; cbn [snd]; unfold fee_sum; lia. }
  split; [assumption|]. split; [assumption|]. split.
  { unfold create_moves. rewrite <- Q. destruct (tx_app _ _ _ _ _ _ _ T1 H) as (G1 & G2 & G3). split; [exact G1|]. split; [exact G2|].
    intros m. rewrite G3. rewrite X1. cbn [app map net snd]. unfold fee_sum. destruct (ps_mint st =? m); lia. }
  split; [assumption|]. split.
  { intros A. apply B3. rewrite Q. destruct (ps_assets st); [congruence|discriminate]. }
  rewrite Q in B1. rewrite Forall_map in B1. exact B1.
Qed.

(** The accounts and amounts of a redemption of [n] pool tokens. *)
Definition redeem_moves (s : pstore) (st : pstate) (c : call) (n : Z) : list (Z * Z) :=
  let f := pool_fee st c n in
  [(mk (ca_pt c), - fe_lqd f); (ps_lqd st, fe_lqd f); (mk (ca_pt c), - fe_init f); (ps_init st, fe_init f); (mk (ca_pt c), - fe_ref f); (mk (ca_ref c), fe_ref f); (mk (ca_pt c), - (n - fee_sum f))] ++
  out_moves (map (fun a => portion false (bal s (as_vault a)) (n - fee_sum f) (supply s (ps_mint st))) (ps_assets st)) (map mk (ca_user c)) (map as_vault (ps_assets st)).
Lemma redeem_ok s cx st n s' c : u64 n -> 0 <= supply s (ps_mint st) -> call_ok s st c ->
  cx_mint cx = ps_mint st -> cx_vaults cx = map as_vault (ps_assets st) ->
  cx_user cx = Some (mk (ca_pt c), map mk (ca_user c), ca_who c) -> cx_fees cx = Some (ps_lqd st, ps_init st, mk (ca_ref c)) ->
  process_redemption e P s cx st n = Ok s' ->
  let m := n - fee_sum (pool_fee st c n) in
  0 < supply s (ps_mint st) /\ 150 <= ps_rate st < 1000000 /\ 0 <= m <= n /\ m <= supply s (ps_mint st) /\ tx_frame s s' (redeem_moves s st c n) [(ps_mint st, - m)] /\
  can_spend s (mk (ca_pt c)) (mk (ca_who c)) /\ mk_signer (ca_who c) = true /\
  Forall (fun a => 0 <= portion false (bal s (as_vault a)) m (supply s (ps_mint st))) (ps_assets st).
Proof.
  intros N S0 C X1 X2 X3 X4 H m. unfold process_redemption in H. apply rbind_ok in H. destruct H as (f & F & H).
  destruct (get_fees_spec _ _ _ _ _ _ _ _ _ _ N X3 X4 F) as (-> & R).
  destruct (charged_bounds (ps_rate st) n (mk (ca_pt c)) (ps_lqd st) (ps_init st) (mk (ca_ref c)) R ltac:(unfold u64 in N; lia)) as (F1 & F2 & F3 & F4 & F5).
  fold (pool_fee st c n) in *. fold (fee_sum (pool_fee st c n)) in F4, F5.
  assert (W : wsub n (total_fee (pool_fee st c n)) = m).
  { unfold wsub, w64, m. rewrite F5. apply Z.mod_small. unfold u64 in N. unfold fee_sum in *. lia. }
  rewrite W in H. apply rbind_ok in H. destruct H as (qs & B & H). apply std_redeem in B.
  destruct (co_minter _ _ _ C) as (i & I1 & I2).
  apply (simple_basket_ok s cx m false qs i) in B; [| | |].
  2:{ rewrite X1. assumption. }
  2:{ intros v. rewrite X2. intros (a & <- & A)%in_map_iff. pose proof (proj1 (Forall_forall _ _) (co_held _ _ _ C) a A) as (t & T & _). eauto. }
  2:{ rewrite X1. assumption. }
  destruct B as [SP Q]. rewrite X1 in *. rewrite X2, map_map in Q. apply rbind_ok in H. destruct H as (s1 & B & H).
  rewrite X3 in H. unfold burn_and_fees in B. rewrite X3, X4 in B. apply rbind_ok in B. destruct B as (s0 & T0 & T1). apply fee_each_ok in T0.
  2:{ repeat constructor; cbn [snd]; unfold fee_sum in *; lia. }
  rewrite X1 in T1. apply burn_ok in T1. destruct T1 as (T1 & C1 & G1 & L1 & L2).
  rewrite X2 in H. apply basket_out_ok in H. destruct H as (T2 & B). destruct B as (B1 & B2 & B3).
  { rewrite Q, !map_length. symmetry. apply C. }
  { rewrite Q, !map_length. reflexivity. }
  split; [assumption|]. split; [assumption|]. split; [unfold m, fee_sum in *; lia|].
  assert (SS : supply s0 (ps_mint st) = supply s (ps_mint st)) by (destruct T0 as (_ & _ & T0); rewrite T0; cbn [net]; lia).
  split; [lia|]. split.
  { unfold redeem_moves. fold m. rewrite <- Q. pose proof (tx_app _ _ _ _ _ _ _ (tx_app _ _ _ _ _ _ _ T0 T1) T2) as G. exact G. }
  split; [apply (frame_spend s s0); [apply T0|assumption]|]. split; [assumption|]. rewrite Q in B1. rewrite Forall_map in B1. exact B1.
Qed.
End Exec.
