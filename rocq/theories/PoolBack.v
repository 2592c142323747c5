(** Who can change a pool, and what a pool token is worth, over any history. *)
From Verif Require Import Base BaseProofs Fees Core Instr InstrProofs Store Borsh PoolStore Pool AdminPool BorshProofs PoolFees PoolFacts PoolExec PoolWorld PoolInv.

Section Back.
Variables (e : penv) (P : impl).
Hypothesis EOK : penv_ok e.
Hypothesis STD : standard e P.

(** No administrator of the pool signs. *)
Definition no_admin (st : pstate) (ms : list meta) : Prop := forall m, In m ms -> mk_signer m = true -> ps_admin st <> Some (mk m).
Lemma state_tx s s' ms b k st : pools_ok e s -> honest e ms b -> pool_entry e P s ms b = Ok s' -> pool_at e s k st -> no_admin st ms -> pool_at e s' k st.
Proof.
  intros [SO PO] HO H PK NA. apply effect_of in H; try assumption. destruct H as [k0 st0 b0 _ _ M0 PK0 PD BL WF LE PA MI RA _ ->|a d st0 k0 n act cx bk WQ PK0 HD NS NP ACT ->|st0 c cx n s1 WQ MS PK0 N CO X1 X2 X3 X4 CR GE|st0 c cx n s1 WQ MS PK0 N CO X1 X2 X3 X4 CR GE|WQ FO].
  - apply pool_other; [|assumption]. intros ->. destruct PK as (_ & b1 & r & D & B & G). apply (state_not_blank e b1 st r G). congruence.
  - apply pool_other; [|assumption]. intros ->. apply NP. apply PK.
  - apply (create_ok e P STD s cx st0 n s1 c) in CR; try assumption; [|apply SO]. destruct CR as (_ & _ & (F & _) & _). eapply frame_pool; [eapply frame_get; eassumption|assumption].
  - apply (redeem_ok e P STD s cx st0 n s1 c) in CR; try assumption; [|apply SO]. cbv zeta in CR. destruct CR as (_ & _ & _ & _ & (F & _) & _). eapply frame_pool; [eapply frame_get; eassumption|assumption].
  - destruct STD as [EQ|EQ]; rewrite EQ in FO; [discriminate|]. cbn [im_foreign admin_impl] in FO.
    apply (foreign_ok e EOK _ _ _ _ SO HO) in FO. destruct FO as (k0 & st0 & q & st' & s1 & _ & [AM AP AW (b0 & D0 & B0 & ->)]).
    destruct AM as (pool & a & r & p & MS & PK0 & AD & SG & FL & DO). destruct (Z.eq_dec k0 k) as [->|NK].
    + exfalso. assert (st0 = st) as -> by (eapply pool_at_fun; eassumption). apply (NA a); [rewrite MS; right; left; reflexivity|assumption|assumption].
    + apply pool_other; [assumption|]. unfold pool_at in *. rewrite (does_other s k0 r st0 p q s1 st' k DO); [assumption|]. destruct PK as [-> _]. apply EOK.
Qed.
Lemma state_env s s' k st : rely e s s' -> pool_at e s k st -> pool_at e s' k st.
Proof. intros [_ R2 _ _ _] (Q & b & r & D & B & G). destruct (R2 _ Q) as [Q' D']. split; [assumption|]. exists b, r. split; [congruence|auto]. Qed.

(** A history in which the pool's administrator, if it has one, does nothing. *)
Inductive user_steps (st : pstate) : pstore -> pstore -> Prop :=
| Us_nil s : user_steps st s s
| Us_tx s s1 s' ms b : user_steps st s s1 -> honest e ms b -> no_admin st ms -> pool_entry e P s1 ms b = Ok s' -> user_steps st s s'
| Us_env s s1 s' : user_steps st s s1 -> rely e s1 s' -> user_steps st s s'.
Lemma user_state st s s' k : user_steps st s s' -> pools_ok e s -> pool_at e s k st -> pools_ok e s' /\ pool_at e s' k st.
Proof.
  intros U. induction U as [s|s s1 s' ms b U IH HO NA H|s s1 s' U IH H]; intros OK PK; [auto| |]; destruct (IH OK PK) as [OK1 PK1].
  - split; [eapply pools_tx; eassumption|eapply state_tx; eassumption].
  - split; [eapply pools_env; eassumption|eapply state_env; eassumption].
Qed.

(** ** Sums of changes *)
Lemma net_nonneg l k : Forall (fun p => fst p = k -> 0 <= snd p) l -> 0 <= net l k.
Proof. induction 1 as [|[k' q] l H F IH]; cbn [net]; [lia|]. cbn [fst snd] in H. destruct (Z.eqb_spec k' k); [specialize (H ltac:(assumption))|]; lia. Qed.
(** Where assets come in, an account that pays nothing gets at least what it is listed for. *)
Lemma net_in us vs : forall ua k, Forall (fun v => 0 <= us v) vs -> ~ In k ua -> length ua = length vs -> (In k vs -> us k <= net (in_moves (map us vs) ua vs) k) /\ 0 <= net (in_moves (map us vs) ua vs) k.
Proof.
  induction vs as [|v vs IH]; intros [|u ua] k F N L; try discriminate; cbn [map in_moves net]; [split; [intros []|lia]|].
  inversion F as [|? ? F1 F2]; subst. destruct (IH ua k F2) as [I1 I2]; [intros X; apply N; right; assumption|injection L as L; assumption|].
  assert (NU : (u =? k) = false) by (apply Z.eqb_neq; intros ->; apply N; left; reflexivity). rewrite NU.
  destruct (Z.eqb_spec v k) as [->|NV]; (split; [|lia]); intros X; [lia|]. destruct X as [X|X]; [congruence|]. specialize (I1 X). lia.
Qed.
(** Where assets go out, an account listed once pays at most what it is listed for. *)
Lemma net_out us vs : forall ua k, Forall (fun v => 0 <= us v) vs -> NoDup vs -> length ua = length vs -> (if in_dec Z.eq_dec k vs then - us k else 0) <= net (out_moves (map us vs) ua vs) k.
Proof.
  unfold out_moves. induction vs as [|v vs IH]; intros ua k F D L; [cbn; lia|]. destruct ua as [|u ua]; [discriminate|].
  inversion F as [|? ? F1 F2]; subst. inversion D as [|? ? D1 D2]; subst. specialize (IH ua k F2 D2 ltac:(injection L as L; assumption)).
  cbn [map in_moves net]. destruct (Z.eqb_spec v k) as [->|NV].
  - destruct (in_dec Z.eq_dec k (k :: vs)) as [_|X]; [|exfalso; apply X; left; reflexivity]. destruct (in_dec Z.eq_dec k vs); [contradiction|]. destruct (u =? k); lia.
  - destruct (in_dec Z.eq_dec k (v :: vs)) as [X|X].
    + destruct X as [X|X]; [contradiction|]. destruct (in_dec Z.eq_dec k vs); [|contradiction]. destruct (u =? k); lia.
    + destruct (in_dec Z.eq_dec k vs); [exfalso; apply X; right; assumption|]. destruct (u =? k); lia.
Qed.

(** ** One step *)
Definition vaults (st : pstate) : list Z := map as_vault (ps_assets st).
Definition all_held (s : pstore) (st : pstate) : Prop := forall v, In v (vaults st) -> held s v (ps_signer st).
(** The assets per pool token do not fall, whatever the asset; and a pool without tokens stays without. *)
Definition no_worse (st : pstate) (s s' : pstore) : Prop :=
  (forall v, In v (vaults st) -> bal s v * supply s' (ps_mint st) <= bal s' v * supply s (ps_mint st)) /\
  (supply s (ps_mint st) = 0 -> supply s' (ps_mint st) = 0).
Lemma no_worse_simple st s s' : store_ok e s -> store_ok e s' -> (forall v, In v (vaults st) -> bal s v <= bal s' v) -> supply s' (ps_mint st) <= supply s (ps_mint st) -> no_worse st s s'.
Proof.
  intros S S' B M. pose proof (so_supply _ _ S (ps_mint st)). pose proof (so_supply _ _ S' (ps_mint st)). split; [|lia]. intros v V. specialize (B v V). pose proof (so_bal _ _ S v). nia.
Qed.
Lemma signer_pda s k st : pool_sound e s k st -> pda e (ps_signer st).
Proof. intros (Q & _). eexists; eexists; exact Q. Qed.
Lemma not_spender s v g ms b m : honest e ms b -> In m ms -> mk_signer m = true -> pda e g -> held s v g -> ~ can_spend s v (mk m).
Proof.
  intros [_ HO] M SG G H (t & T & C). destruct (held_token _ _ _ _ H T) as [O D]. rewrite Forall_forall in HO. destruct (HO m M) as [_ NP]. apply (NP SG). destruct C as [C|C]; [congruence|congruence].
Qed.
Lemma who_in c : In (ca_who c) (call_metas c).
Proof. unfold call_metas. right. right. apply in_or_app. right. right. right. apply in_or_app. right. left. reflexivity. Qed.

Lemma map_in_fst st (f : Z -> Z) : map (fun a => f (as_vault a)) (ps_assets st) = map f (vaults st).
Proof. unfold vaults. rewrite map_map. reflexivity. Qed.
Lemma step_user s s' ms b k st : pools_ok e s -> honest e ms b -> no_admin st ms -> pool_entry e P s ms b = Ok s' -> pool_at e s k st ->
  NoDup (vaults st) -> all_held s st -> all_held s' st /\ no_worse st s s'.
Proof.
  intros OK HO NA H PK ND AH. pose proof (pools_tx e P EOK STD _ _ _ _ OK HO H) as OK'. pose proof OK as [SO PO]. pose proof OK' as [SO' _].
  pose proof (PO _ _ PK) as SND. pose proof (signer_pda _ _ _ SND) as PD. destruct SND as (SG & MI & RT).
  apply effect_of in H; try assumption. destruct H as [k0 st0 b0 _ _ M0 PK0 PD0 BL WF LE PA MI0 RA _ ->|a d st0 k0 n act cx bk WQ PK0 HD NS NP ACT ->|st0 c cx n s1 WQ MS PK0 N CO X1 X2 X3 X4 CR GE|st0 c cx n s1 WQ MS PK0 N CO X1 X2 X3 X4 CR GE|WQ FO].
  - assert (NS : pa_prog (pget s k0) <> spl_id) by (rewrite PK0; apply EOK). split.
    + intros v V. apply other_held; auto.
    + apply no_worse_simple; try assumption; [intros v V; rewrite other_bal by assumption; lia|rewrite other_supply by assumption; lia].
  - split.
    + intros v V. apply other_held; auto.
    + apply no_worse_simple; try assumption; [intros v V; rewrite other_bal by assumption; lia|rewrite other_supply by assumption; lia].
  - (* creation *)
    apply (create_ok e P STD s cx st0 n s1 c) in CR; try assumption; [|apply SO]. destruct CR as (SP & R0 & (F & B & M) & CS & SGN & PN). pose proof (frame_get _ _ _ F GE) as F'.
    split; [intros v V; eapply frame_held; [eassumption|auto]|].
    assert (LA : length (map mk (ca_user c)) = length (vaults st0)) by (unfold vaults; rewrite !map_length; apply CO).
    assert (MIN : In (ca_who c) ms) by (rewrite MS; apply who_in).
    assert (NU : forall v, In v (vaults st) -> ~ In v (map mk (ca_user c))).
    { intros v V X. pose proof (CS _ X) as C. destruct (ps_assets st0) as [|a0 l0] eqn:EA; [unfold vaults in LA; rewrite EA in LA; destruct (ca_user c); [destruct X|discriminate]|].
      apply (not_spender s v (ps_signer st) ms b (ca_who c)); auto. apply SGN. discriminate. }
    assert (PN' : Forall (fun v => 0 <= portion true (bal s v) n (supply s (ps_mint st0))) (vaults st0)) by (unfold vaults; rewrite Forall_map; exact PN).
    pose proof (charged_bounds (ps_rate st0) n (mk (ca_pt c)) (ps_lqd st0) (ps_init st0) (mk (ca_ref c)) R0 ltac:(unfold u64 in N; lia)) as CB. cbv zeta in CB. fold (pool_fee st0 c n) in CB.
    assert (TAIL : forall v, 0 <= net [(ps_lqd st0, fe_lqd (pool_fee st0 c n)); (ps_init st0, fe_init (pool_fee st0 c n)); (mk (ca_ref c), fe_ref (pool_fee st0 c n)); (mk (ca_pt c), n - fee_sum (pool_fee st0 c n))] v).
    { intros v. apply net_nonneg. unfold fee_sum. repeat constructor; cbn [fst snd]; lia. }
    assert (BV : forall v, In v (vaults st) -> bal s v + (if in_dec Z.eq_dec v (vaults st0) then portion true (bal s v) n (supply s (ps_mint st0)) else 0) <= bal s' v).
    { intros v V. rewrite (get_bal s1 s') by auto. rewrite B. unfold create_moves. rewrite net_app, (map_in_fst st0 (fun v => portion true (bal s v) n (supply s (ps_mint st0)))). specialize (TAIL v).
      destruct (net_in (fun v => portion true (bal s v) n (supply s (ps_mint st0))) (vaults st0) (map mk (ca_user c)) v PN' (NU v V) LA) as [I1 I2]. fold (vaults st0).
      destruct (in_dec Z.eq_dec v (vaults st0)) as [X|X]; [specialize (I1 X)|]; lia. }
    destruct (Z.eq_dec (mk (ca_pool c)) k) as [EK|NK].
    + subst k. assert (st0 = st) as -> by (eapply pool_at_fun; eassumption). split; [|lia]. intros v V. specialize (BV v V). destruct (in_dec Z.eq_dec v (vaults st)); [|contradiction].
      rewrite (get_supply s1 s') by auto. rewrite M. cbn [net]. rewrite Z.eqb_refl. unfold portion in BV. pose proof (ceil_spec (bal s v * n) (supply s (ps_mint st)) SP). nia.
    + assert (NM : ps_mint st0 <> ps_mint st).
      { intros EM. destruct (PO _ _ PK0) as (SG0 & (i0 & I0 & J0) & _). destruct MI as (i & I & J). rewrite EM in I0. assert (ES : ps_signer st0 = ps_signer st) by congruence. rewrite ES in SG0. destruct (po_inj _ EOK _ _ _ _ _ SG0 SG). contradiction. }
      apply no_worse_simple; try assumption.
      * intros v V. specialize (BV v V). destruct (in_dec Z.eq_dec v (vaults st0)) as [X|X]; [|lia]. rewrite Forall_forall in PN'. specialize (PN' v X). cbn beta in PN'. lia.
      * rewrite (get_supply s1 s') by auto. rewrite M. cbn [net]. replace (ps_mint st0 =? ps_mint st) with false by lia. lia.
  - (* redemption *)
    apply (redeem_ok e P STD s cx st0 n s1 c) in CR; try assumption; [|apply SO]. cbv zeta in CR. destruct CR as (SP & R0 & MB & MS1 & (F & B & M) & CS & SGN & PN). pose proof (frame_get _ _ _ F GE) as F'.
    split; [intros v V; eapply frame_held; [eassumption|auto]|].
    assert (LA : length (map mk (ca_user c)) = length (vaults st0)) by (unfold vaults; rewrite !map_length; apply CO).
    assert (MIN : In (ca_who c) ms) by (rewrite MS; apply who_in).
    assert (NU : forall v, In v (vaults st) -> mk (ca_pt c) <> v).
    { intros v V <-. apply (not_spender s (mk (ca_pt c)) (ps_signer st) ms b (ca_who c)); auto. }
    set (m := n - fee_sum (pool_fee st0 c n)) in *.
    assert (PN' : Forall (fun v => 0 <= portion false (bal s v) m (supply s (ps_mint st0))) (vaults st0)) by (unfold vaults; rewrite Forall_map; exact PN).
    pose proof (charged_bounds (ps_rate st0) n (mk (ca_pt c)) (ps_lqd st0) (ps_init st0) (mk (ca_ref c)) R0 ltac:(unfold u64 in N; lia)) as CB. cbv zeta in CB. fold (pool_fee st0 c n) in CB.
    assert (BV : forall v, In v (vaults st) -> NoDup (vaults st0) -> bal s v - (if in_dec Z.eq_dec v (vaults st0) then portion false (bal s v) m (supply s (ps_mint st0)) else 0) <= bal s' v).
    { intros v V ND0. rewrite (get_bal s1 s') by auto. rewrite B. unfold redeem_moves. fold m. rewrite net_app, (map_in_fst st0 (fun v => portion false (bal s v) m (supply s (ps_mint st0)))).
      pose proof (net_out (fun v => portion false (bal s v) m (supply s (ps_mint st0))) (vaults st0) (map mk (ca_user c)) v PN' ND0 LA) as I1. fold (vaults st0).
      assert (H0 : 0 <= net [(mk (ca_pt c), - fe_lqd (pool_fee st0 c n)); (ps_lqd st0, fe_lqd (pool_fee st0 c n)); (mk (ca_pt c), - fe_init (pool_fee st0 c n)); (ps_init st0, fe_init (pool_fee st0 c n)); (mk (ca_pt c), - fe_ref (pool_fee st0 c n)); (mk (ca_ref c), fe_ref (pool_fee st0 c n)); (mk (ca_pt c), - m)] v).
      { pose proof (NU v V) as NUV. apply net_nonneg. repeat constructor; cbn [fst snd]; intros ?; try contradiction; lia. }
      destruct (in_dec Z.eq_dec v (vaults st0)); lia. }
    destruct (Z.eq_dec (mk (ca_pool c)) k) as [EK|NK].
    + subst k. assert (st0 = st) as -> by (eapply pool_at_fun; eassumption). split; [|lia]. intros v V. specialize (BV v V ND). destruct (in_dec Z.eq_dec v (vaults st)); [|contradiction].
      rewrite (get_supply s1 s') by auto. rewrite M. cbn [net]. rewrite Z.eqb_refl. unfold portion in BV. pose proof (Z.mul_div_le (bal s v * m) (supply s (ps_mint st)) SP). nia.
    + assert (NSI : ps_signer st0 <> ps_signer st).
      { intros ES. destruct (PO _ _ PK0) as (SG0 & _). rewrite ES in SG0. destruct (po_inj _ EOK _ _ _ _ _ SG0 SG). contradiction. }
      assert (NM : ps_mint st0 <> ps_mint st).
      { intros EM. destruct (PO _ _ PK0) as (SG0 & (i0 & I0 & J0) & _). destruct MI as (i & I & J). rewrite EM in I0. congruence. }
      assert (NV : forall v, In v (vaults st) -> ~ In v (vaults st0)).
      { intros v V X. unfold vaults in X. apply in_map_iff in X. destruct X as (a & A1 & A2). pose proof (proj1 (Forall_forall _ _) (co_held _ _ _ CO) a A2) as (t & T & _ & OWN). rewrite A1 in T.
        destruct (held_token _ _ _ _ (AH v V) T) as [O D]. destruct OWN; congruence. }
      apply no_worse_simple; try assumption.
      * intros v V. rewrite (get_bal s1 s') by auto. rewrite B. unfold redeem_moves. fold m. rewrite net_app. 
        assert (H0 : 0 <= net [(mk (ca_pt c), - fe_lqd (pool_fee st0 c n)); (ps_lqd st0, fe_lqd (pool_fee st0 c n)); (mk (ca_pt c), - fe_init (pool_fee st0 c n)); (ps_init st0, fe_init (pool_fee st0 c n)); (mk (ca_pt c), - fe_ref (pool_fee st0 c n)); (mk (ca_ref c), fe_ref (pool_fee st0 c n)); (mk (ca_pt c), - m)] v).
        { pose proof (NU v V) as NUV. apply net_nonneg. repeat constructor; cbn [fst snd]; intros ?; try contradiction; lia. }
        assert (H1 : 0 <= net (out_moves (map (fun a => portion false (bal s (as_vault a)) m (supply s (ps_mint st0))) (ps_assets st0)) (map mk (ca_user c)) (map as_vault (ps_assets st0))) v).
        { rewrite (map_in_fst st0 (fun v => portion false (bal s v) m (supply s (ps_mint st0)))). fold (vaults st0). specialize (NV v V). clear -PN' NV LA. unfold out_moves. apply net_nonneg. generalize dependent (map mk (ca_user c)).
          induction (vaults st0) as [|w l IH]; intros [|u ua] LA; try discriminate; [constructor|]. inversion PN'; subst. cbn [map in_moves]. constructor; [cbn [fst snd]; lia|]. constructor; [cbn [fst snd]; intros ->; exfalso; apply NV; left; reflexivity|].
          apply IH; [assumption|intros X; apply NV; right; assumption|injection LA as LA; assumption]. }
        lia.
      * rewrite (get_supply s1 s') by auto. rewrite M. cbn [net]. replace (ps_mint st0 =? ps_mint st) with false by lia. lia.
  - (* foreign *)
    destruct STD as [EQ|EQ]; rewrite EQ in FO; [discriminate|]. cbn [im_foreign admin_impl] in FO.
    apply (foreign_ok e EOK _ _ _ _ SO HO) in FO. destruct FO as (k0 & st0 & q & st' & s1 & _ & [AM AP AW (b0 & D0 & B0 & ->)]).
    destruct AM as (pool & a & r & p & MS & PK0 & AD & SGA & FL & DO). destruct (Z.eq_dec k0 k) as [->|NK].
    { exfalso. assert (st0 = st) as -> by (eapply pool_at_fun; eassumption). apply (NA a); [rewrite MS; right; left; reflexivity|assumption|assumption]. }
    assert (PR : pa_prog (pget s k0) = pe_prog e) by apply AP. assert (NS : pa_prog (pget s k0) <> spl_id) by (rewrite PR; apply EOK).
    pose proof (does_other _ _ _ _ _ _ _ _ _ DO NS) as G1.
    assert (NSI : ps_signer st0 <> ps_signer st).
    { intros ES. destruct (PO _ _ AP) as (SG0 & _). rewrite ES in SG0. destruct (po_inj _ EOK _ _ _ _ _ SG0 SG). contradiction. }
    assert (KEEP : (forall v, In v (vaults st) -> held s1 v (ps_signer st)) /\ (forall v, bal s1 v = bal s v) /\ (forall m, supply s1 m = supply s m)).
    { destruct DO; auto. match goal with H : lent _ _ _ _ _ |- _ => pose proof H as LE; apply lent_facts in H; destruct H as (L1 & L2 & L3 & L4) end.
      split; [|split; [assumption|intros; unfold supply; rewrite L2; reflexivity]]. intros w W. pose proof (AH w W) as HW. destruct (Z.eq_dec w (mk v)) as [->|NW].
      - exfalso. match goal with H : exists t, ptoken s (mk v) = Some t /\ t_owner t = ps_signer st0 |- _ => destruct H as (t & T & O) end. destruct (held_token _ _ _ _ HW T). congruence.
      - destruct HW as (t & T & TT). exists t. split; [|assumption]. unfold ptoken in *. rewrite L3 by assumption. assumption. }
    destruct KEEP as (K1 & K2 & K3). assert (NS1 : pa_prog (pget s1 k0) <> spl_id) by (rewrite G1; assumption). split.
    + intros v V. apply other_held; auto.
    + apply no_worse_simple; try assumption; [intros v V; rewrite other_bal, K2 by assumption; lia|rewrite other_supply, K3 by assumption; lia].
Qed.
Lemma no_worse_trans st s s1 s' : store_ok e s -> store_ok e s1 -> store_ok e s' -> no_worse st s s1 -> no_worse st s1 s' -> no_worse st s s'.
Proof.
  intros S S1 S2 [A1 A2] [B1 B2]. split; [|auto]. intros v V. specialize (A1 v V). specialize (B1 v V).
  pose proof (so_supply _ _ S (ps_mint st)) as P0. pose proof (so_supply _ _ S1 (ps_mint st)) as P1. pose proof (so_supply _ _ S2 (ps_mint st)) as P2.
  pose proof (so_bal _ _ S v). pose proof (so_bal _ _ S1 v). pose proof (so_bal _ _ S2 v).
  destruct (Z.eq_dec (supply s1 (ps_mint st)) 0) as [Z0|Z0]; [rewrite (B2 Z0); nia|].
  assert (0 < supply s1 (ps_mint st)) by lia. apply (Z.mul_le_mono_pos_r _ _ (supply s1 (ps_mint st))); [assumption|]. nia.
Qed.
Lemma backing st s s' k : user_steps st s s' -> pools_ok e s -> pool_at e s k st -> NoDup (vaults st) -> all_held s st -> all_held s' st /\ no_worse st s s'.
Proof.
  intros U. induction U as [s|s s1 s' ms b U IH HO NA H|s s1 s' U IH H]; intros OK PK ND AH.
  - split; [assumption|]. split; [intros; lia|auto].
  - destruct (IH OK PK ND AH) as [A1 N1]. destruct (user_state _ _ _ _ U OK PK) as [OK1 PK1]. destruct (step_user s1 s' ms b k st OK1 HO NA H PK1 ND A1) as [A2 N2].
    split; [assumption|]. eapply no_worse_trans; [apply OK|apply OK1|eapply pools_tx; eassumption|assumption|assumption].
  - destruct (IH OK PK ND AH) as [A1 N1]. destruct (user_state _ _ _ _ U OK PK) as [OK1 PK1]. pose proof OK1 as [_ PO1]. pose proof (PO1 _ _ PK1) as SND. pose proof (signer_pda _ _ _ SND) as PD. destruct SND as (_ & MI & _).
    assert (A2 : all_held s' st) by (intros v V; apply (re_held _ _ _ H _ _ PD (A1 v V))). split; [assumption|].
    eapply no_worse_trans; [apply OK|apply OK1|apply (re_ok _ _ _ H)|assumption|]. apply no_worse_simple; [apply OK1|apply (re_ok _ _ _ H)| |].
    + intros v V. apply (re_held _ _ _ H _ _ PD (A1 v V)).
    + apply (re_minted _ _ _ H _ _ PD MI).
Qed.
End Back.
