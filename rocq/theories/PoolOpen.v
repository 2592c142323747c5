(** What opening a pool establishes (C89). *)
From Verif Require Import Base BaseProofs Fees Core Instr InstrProofs Store Borsh PoolStore Pool AdminPool BorshProofs PoolFees PoolFacts PoolExec PoolWorld PoolInv.

Section Open.
Variables (e : penv) (P : impl).
Hypothesis EOK : penv_ok e.
Hypothesis STD : standard e P.
Lemma init_rest cx st st' : im_init P cx st = Ok st' -> ps_assets st' = ps_assets st /\ ps_name st' = ps_name st /\ ps_lqd st' = ps_lqd st /\ ps_init st' = ps_init st.
Proof.
  destruct STD as [Q|Q]; rewrite Q; cbn [im_init default_impl admin_impl]; intros H; [injection H as <-; auto|].
  unfold admin_init in H. destruct (cx_custom cx) as [|a r]; [discriminate|]. apply Ok_inj in H. subst st'. cbn [write_paused set_admin ps_assets ps_name ps_lqd ps_init]. auto.
Qed.
Theorem new_pool s s' ms b k q : preach e P s -> honest e ms b -> pool_entry e P s ms b = Ok s' -> whole (get_request e) b = Some (RInit q) -> hd_error (map mk ms) = Some k ->
  (forall st0, ~ pool_at e s k st0) /\ (forall x, x <> k -> pget s' x = pget s x) /\
  exists st t, pool_at e s' k st /\ ps_name st = iq_name q /\ ps_rate st = iq_rate q /\ ps_nonce st = iq_nonce q /\ zlen (ps_assets st) = iq_assets q /\
    (forall a, In a (ps_assets st) -> exists ta, ptoken s (as_vault a) = Some ta /\ t_mint ta = as_mint a) /\
    pa_data (pget s (ps_lqd st)) = PToken t /\ t_owner t = lqd_fee_owner /\ t_delegate t = None /\ (t_close t = None \/ t_close t = Some (ps_signer st)).
Proof.
  intros RE HO H WQ HK. pose proof (proj1 (preach_ok e P EOK STD s RE)) as SO. pose proof (wf_metas _ _ _ HO) as WM. pose proof (proj1 HO) as BB.
  assert (WR := proj2 (whole_ok _ _ _ (request_ok e)) b _ BB WQ). destruct WR as [WR EB]. unfold pool_entry in H. rewrite (tagged (RInit q)) in H by assumption. rewrite WQ in H. cbn [ok_or rbind] in H.
  unfold process_request in H. apply rbind_ok in H. destruct H as ([pool r] & N%next_ok & H). apply rbind_ok in H. destruct H as (o & L & H).
  assert (k = mk pool) by (rewrite N in HK; cbn [map hd_error] in HK; congruence). subst k. destruct o as [st0|]; [discriminate|].
  apply load_none in L. destruct L as (L1 & b0 & L2 & L3). cbn [wf_request] in WR. destruct WR as (W1 & W2 & W3 & W4 & W5). unfold initialize_pool in H.
  pose proof WM as WMA.
  apply rbind_ok in H. destruct H as ([pool' r1] & N1%next_ok & H). assert (pool' = pool) by congruence. subst pool'. destruct (forall_next _ _ _ _ N1 WM) as [K1 WM1].
  apply rbind_ok in H. destruct H as ([mint r2] & N2%next_ok & H). destruct (forall_next _ _ _ _ N2 WM1) as [K2 WM2].
  apply rbind_ok in H. destruct H as ([vaults r3] & [N3 L3']%nexts_ok & H). rewrite N3 in WM2. apply Forall_app in WM2. destruct WM2 as [K3 WM3].
  apply rbind_ok in H. destruct H as ([signer r4] & N4%next_ok & H). destruct (forall_next _ _ _ _ N4 WM3) as [K4 WM4].
  apply rbind_ok in H. destruct H as ([lqd r5] & N5%next_ok & H). destruct (forall_next _ _ _ _ N5 WM4) as [K5 WM5].
  apply rbind_ok in H. destruct H as ([ini r6] & N6%next_ok & H). destruct (forall_next _ _ _ _ N6 WM5) as [K6 WM6].
  apply rbind_ok in H. destruct H as (assets & A & H). apply vault_assets_ok in A. destruct A as (A1 & A3). cbv zeta in H.
  set (st := mkPstate (mk mint) assets (mk signer) (iq_nonce q) [] (iq_name q) (mk lqd) (mk ini) (iq_rate q) None []) in *.
  apply rbind_ok in H. destruct H as (cx & C & H). apply context_init in C. destruct C as (C1 & C2 & C3 & C4).
  do 4 (apply rbind_ok in H; destruct H as ([] & _ & H)). apply rbind_ok in H. destruct H as ([] & LQ & H). apply rbind_ok in H. destruct H as ([] & _ & H).
  apply rbind_ok in H. destruct H as (st' & I & H). pose proof I as I'. apply (std_init e P STD) in I. destruct I as (I1 & I2 & I3 & I4 & I5).
  apply rbind_ok in H. destruct H as (a & PA & H). destruct (pe_pda e (mk pool) (ps_nonce st')) as [a'|] eqn:PD; [|discriminate]. injection PA as <-.
  apply rbind_ok in H. destruct H as ([] & K7%check_ok & H). apply rbind_ok in H. destruct H as ([] & K8%check_ok & H). apply rbind_ok in H. destruct H as ([] & K9%check_ok & H).
  unfold save_state in H. rewrite L2 in H. rstep H. apply Ok_inj in H. apply andb_prop in E. destruct E as [E1 E2].
  assert (WS : wf_state e st).
  { assert (LA : len32 assets). { unfold len32, zlen. rewrite A1, L3'. lia. }
    constructor; cbn [st ps_mint ps_assets ps_signer ps_nonce ps_params ps_name ps_lqd ps_init ps_rate ps_admin ps_custom]; try assumption; auto.
    - split; [assumption|]. cbn [st ps_assets] in C4. clear -C4 A3 K3 SO. revert vaults A3 K3. induction C4 as [|a l (t & T1 & T2) C4 IH]; intros [|v vs] A3 K3; try discriminate; constructor.
      + injection A3 as A3 _. inversion K3; subst. split; [rewrite <- T2; eapply so_mint; eassumption|congruence].
      + injection A3 as _ A3. inversion K3; subst. eapply IH; eassumption.
    - split; [reflexivity|constructor].
    - discriminate.
    - split; [reflexivity|constructor]. }
  assert (WS' : wf_state e st').
  { apply I5; [assumption|]. rewrite Forall_forall in *. intros m M. apply WMA. apply C3. assumption. }

  destruct (init_rest _ _ _ I') as (J1 & J2 & J3 & J4). assert (B0 : is_bytes b0) by (eapply so_bytes; eassumption).
  split; [|split].
  - intros s0 (_ & bb & rr & D1 & _ & D2). apply (state_not_blank e bb s0 rr D2). congruence.
  - intros x X. subst s'. rewrite pget_pset. destruct (Z.eqb_spec (mk pool) x); [congruence|reflexivity].
  - unfold check_lqd in LQ. apply rbind_ok in LQ. destruct LQ as (t & T & LQ). apply rbind_ok in LQ. destruct LQ as ([] & T1%check_ok & LQ). apply rbind_ok in LQ. destruct LQ as ([] & T2%check_ok & T3%check_ok).
    exists st', t. split; [subst s'; apply pool_saved; assumption|]. split; [rewrite J2; reflexivity|]. split; [rewrite I4; reflexivity|]. split; [rewrite I3; reflexivity|]. split; [rewrite J1; cbn [st ps_assets]; unfold zlen; rewrite A1, L3'; lia|].
    split; [rewrite J1; rewrite Forall_forall in C4; exact C4|]. split; [rewrite J3; cbn [st ps_lqd]; unfold unpack_token in T; destruct (pa_data (pget s (mk lqd))); try discriminate; apply rbind_ok in T; destruct T as (? & _ & T); injection T as ->; reflexivity|].
    split; [lia|]. split; [destruct (t_delegate t); [discriminate|reflexivity]|]. rewrite I2. cbn [st ps_signer] in T3 |- *. destruct (t_close t) as [cl|]; [right; cbn [opt_eqb orb] in T3; f_equal; lia|left; reflexivity].
Qed.
End Open.
