(** Quotes, round trips, and the bytes of requests and states. *)
From Verif Require Import Base BaseProofs Fees Core Instr InstrProofs Store Borsh PoolStore Pool AdminPool BorshProofs PoolFees PoolFacts PoolExec PoolWorld PoolInv PoolBack PoolMain AssertOwner.

Section Quote.
Variables (e : penv) (P : impl).
Hypothesis EOK : penv_ok e.
Hypothesis STD : standard e P.

(** A round trip by one or several users. *)
Lemma round_trip s s1 s2 ms ms' n n' k st : preach e P s -> pool_at e s k st -> NoDup (vaults st) -> all_held s st -> u64 n -> u64 n' -> n' <= n ->
  honest e ms (put_request (RExecute (Create n))) -> no_admin st ms -> hd_error (map mk ms) = Some k -> pool_entry e P s ms (put_request (RExecute (Create n))) = Ok s1 ->
  honest e ms' (put_request (RExecute (Redeem n'))) -> no_admin st ms' -> hd_error (map mk ms') = Some k -> pool_entry e P s1 ms' (put_request (RExecute (Redeem n'))) = Ok s2 ->
  forall v, In v (vaults st) -> bal s v <= bal s2 v.
Proof.
  intros RE PK ND AH N N' LE HO NA HD H HO' NA' HD' H' v V. pose proof RE as OK. apply (preach_ok e P EOK STD) in OK.
  assert (RE1 : preach e P s1) by exact (Pr_step e P s s1 RE (Step_tx e P s s1 ms _ HO H)).
  assert (U : user_steps e P st s s2) by (exact (Us_tx e P st s s1 s2 ms' _ (Us_tx e P st s s s1 ms _ (Us_nil e P st s) HO NA H) HO' NA' H')).
  destruct (backing e P EOK STD st s s2 k U OK PK ND AH) as [_ NW].
  destruct (creation_effect e P EOK STD _ _ _ _ RE N HO H) as (st0 & c & MS & PK0 & _ & S0 & _ & S1 & _).
  assert (mk (ca_pool c) = k) as Q by (subst ms; cbn in HD; congruence). rewrite Q in PK0. assert (st0 = st) as -> by (eapply pool_at_fun; eassumption).
  assert (PK1 : pool_at e s1 k st) by exact (state_tx e P EOK STD s s1 ms _ k st OK HO H PK NA).
  destruct (redemption_effect e P EOK STD _ _ _ _ RE1 N' HO' H') as (st1 & c' & MS' & PK1' & _ & _ & _ & S2 & _).
  assert (mk (ca_pool c') = k) as Q' by (subst ms'; cbn in HD'; congruence). rewrite Q' in PK1'. assert (st1 = st) as -> by (eapply pool_at_fun; eassumption).
  specialize (S1 (ps_mint st)). specialize (S2 (ps_mint st)). rewrite Z.eqb_refl in *.
  apply (preach_ok e P EOK STD) in RE1. destruct RE1 as [SO1 PO1]. destruct (PO1 _ _ PK1) as (_ & _ & RT).
  destruct (charged_bounds (ps_rate st) n' (mk (ca_pt c')) (ps_lqd st) (ps_init st) (mk (ca_ref c')) RT ltac:(unfold u64 in N'; lia)) as (F1 & F2 & F3 & _).
  fold (pool_fee st c' n') in *. unfold fee_sum in *. eapply no_free_assets; [eassumption| |assumption|apply OK]. lia.
Qed.

(** The amounts a quote reports. *)
Definition quote (s : pstore) (st : pstate) (a : action) : list Z :=
  match a with
  | Create n => map (fun v => portion true (bal s v) n (supply s (ps_mint st))) (vaults st)
  | Redeem n => map (fun v => portion false (bal s v) n (supply s (ps_mint st))) (vaults st)
  | Swap _ => []
  end.

Lemma context_basket s ms st a cx : context_new s ms st (RGetBasket a) = Ok cx ->
  cx_mint cx = ps_mint st /\ cx_vaults cx = vaults st /\ minted_by s (ps_mint st) (ps_signer st) /\
  Forall (fun a => exists t, ptoken s (as_vault a) = Some t /\ t_mint t = as_mint a) (ps_assets st) /\
  exists pool mint vs auth buf prog rest, ms = pool :: mint :: vs ++ auth :: buf :: prog :: rest /\ length vs = length (ps_assets st) /\ cx_retbuf cx = Some (mk buf, mk prog) /\ pa_prog (pget s (mk buf)) = mk prog.
Proof.
  intros H. unfold context_new in H.
  apply rbind_ok in H. destruct H as ([pool r1] & N1%next_ok & H).
  apply rbind_ok in H. destruct H as ([mint r2] & N2%next_ok & H).
  apply rbind_ok in H. destruct H as ([vs r3] & [N3 L3]%nexts_ok & H).
  apply rbind_ok in H. destruct H as ([auth r4] & N4%next_ok & H).
  apply rbind_ok in H. destruct H as ([] & C1%check_address_ok & H).
  apply rbind_ok in H. destruct H as ([] & C2%check_minter_ok & H).
  apply rbind_ok in H. destruct H as ([] & C3%check_all_ok & H); [|lia].
  apply rbind_ok in H. destruct H as ([] & C4%check_address_ok & H). cbv zeta in H.
  apply rbind_ok in H. destruct H as ([ra r5] & N5%next_ok & H).
  apply rbind_ok in H. destruct H as ([rp r6] & N6%next_ok & H).
  apply rbind_ok in H. destruct H as ([] & C5%check_ok & H).
  apply rbind_ok in H. destruct H as ([ps r7] & _ & H).
  apply rbind_ok in H. destruct H as ([] & _ & H). injection H as <-. cbn [cx_mint cx_vaults cx_retbuf]. split; [assumption|]. rewrite C1 in C2.
  assert (V : map mk vs = vaults st).
  { clear -C3. unfold vaults. induction C3 as [|x y l l' H C3 IH]; [reflexivity|]. apply rbind_ok in H. destruct H as ([] & H1%check_address_ok & _). cbn [map]. congruence. }
  split; [assumption|]. split; [exact C2|]. split.
  - clear -C3. induction C3 as [|x y l l' H C3 IH]; constructor; [|assumption]. apply rbind_ok in H. destruct H as ([] & H1%check_address_ok & H2%check_token_ok).
    rewrite H1 in H2. destruct H2 as (t & T1 & T2 & _). eauto.
  - exists pool, mint, vs, auth, ra, rp, r6. subst. split; [reflexivity|]. split; [assumption|]. split; [reflexivity|lia].
Qed.
Lemma quote_effect s s' ms a : preach e P s -> wf_action a -> honest e ms (put_request (RGetBasket a)) -> pool_entry e P s ms (put_request (RGetBasket a)) = Ok s' ->
  exists k st buf prog d, hd_error (map mk ms) = Some k /\ pool_at e s k st /\ 0 < supply s (ps_mint st) /\ (exists n, a = Create n \/ a = Redeem n) /\
    nth_error (map mk ms) (3 + length (ps_assets st)) = Some buf /\ pa_prog (pget s buf) = prog /\ prog <> spl_id /\ prog <> pe_prog e /\
    pe_retbuf e prog (pa_data (pget s buf)) (le 8 0 ++ put_basket (quote s st a)) = Ok d /\ s' = pset s buf d.
Proof.
  intros RE W HO H. apply (preach_ok e P EOK STD) in RE. destruct RE as [SO PO].
  assert (WH : whole (get_request e) (put_request (RGetBasket a)) = Some (RGetBasket a)) by (apply (proj1 (whole_ok _ _ _ (request_ok e))); exact W).
  assert (TG : (8 <=? length (put_request (RGetBasket a)))%nat && (num (put_request (RGetBasket a)) 0 8 =? POOL_REQUEST_TAG) = true) by reflexivity.
  unfold pool_entry in H. rewrite TG, WH in H. cbn [ok_or rbind] in H. unfold process_request in H.
  apply rbind_ok in H. destruct H as ([pool r] & N1%next_ok & H). apply rbind_ok in H. destruct H as (o & L & H). destruct o as [st|]; [|discriminate].
  apply (load_some e) in L; [|assumption]. apply rbind_ok in H. destruct H as (cx & CX & H).
  apply context_basket in CX. destruct CX as (X1 & X2 & X3 & X4 & p0 & m0 & vs & auth & buf & prog & rest & MS & LV & RB & PB).
  apply rbind_ok in H. destruct H as (b & B & H). unfold write_retbuf in H. rewrite RB in H. destruct (_ || _) eqn:NP; [discriminate|]. apply rbind_ok in H. destruct H as (d & D & H). apply Ok_inj in H.
  destruct X3 as (i & I1 & I2).
  assert (BK : forall n up, simple_basket s cx n up = Ok b -> 0 < supply s (ps_mint st) /\ b = map (fun v => portion up (bal s v) n (supply s (ps_mint st))) (vaults st)).
  { intros n up Q. apply (simple_basket_ok s cx n up b i) in Q; [rewrite X1, X2 in Q; exact Q|rewrite X1; assumption| |rewrite X1; apply SO].
    intros v. rewrite X2. intros (x & <- & A)%in_map_iff. pose proof (proj1 (Forall_forall _ _) X4 x A) as (t & T & _). eauto. }
  assert (BQ : 0 < supply s (ps_mint st) /\ b = quote s st a /\ exists n, a = Create n \/ a = Redeem n).
  { destruct a as [n|n|l]; [|  |discriminate].
    - apply (std_create e P STD) in B. destruct (BK _ _ B). split; [assumption|]. split; [assumption|eauto].
    - apply (std_redeem e P STD) in B. destruct (BK _ _ B). split; [assumption|]. split; [assumption|eauto]. }
  destruct BQ as (S0 & -> & EX). exists (mk pool), st, (mk buf), (mk prog), d.
  split; [rewrite N1; reflexivity|]. split; [assumption|]. split; [assumption|]. split; [assumption|]. split.
  { rewrite MS, !map_cons, map_app, !map_cons. replace (3 + length (ps_assets st))%nat with (S (S (length (map mk vs) + 1)))%nat by (rewrite map_length; lia). cbn [nth_error]. rewrite nth_error_app2 by lia. rewrite Nat.add_comm, Nat.add_sub. reflexivity. }
  split; [assumption|]. split; [lia|]. split; [lia|]. split; [exact D|]. auto.
Qed.
End Quote.

Lemma assert_owner_ok owners data : is_bytes data -> (assert_owner owners data = Ok tt <-> exists o r, owners = o :: r /\ data = key_le o /\ wf_key o).
Proof.
  intros B. unfold assert_owner. split.
  - destruct owners as [|o r]; [discriminate|]. intros H. apply rbind_ok in H. destruct H as ([] & L%check_ok & K%check_ok). exists o, r. split; [reflexivity|].
    destruct (proj2 key_ok data (key_unle data 0) []) as (W & Q & _); [assumption| |].
    + unfold get_key. replace (32 <=? length data)%nat with true by (apply Nat.eqb_eq in L; symmetry; apply Nat.leb_le; lia). apply Nat.eqb_eq in L. rewrite skipn_all2 by lia. reflexivity.
    + rewrite app_nil_r in Q. assert (key_unle data 0 = o) as <- by lia. split; assumption.
  - intros (o & r & -> & -> & W). pose proof (proj1 key_ok o [] W) as K. rewrite app_nil_r in K. unfold get_key in K. destruct (32 <=? length (key_le o))%nat eqn:L; [|discriminate].
    assert (L' : (length (key_le o) =? 32)%nat = true) by (unfold key_le; rewrite app_length, !le_len; reflexivity). rewrite L'. cbn [check rbind].
    assert (K1 : key_unle (key_le o) 0 = o) by congruence. rewrite K1, Z.eqb_refl. reflexivity.
Qed.
