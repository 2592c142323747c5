(** Removal, extremes, in-place update and enumeration on well-formed slabs. *)
From Verif Require Import Base BaseProofs Critbit CritbitBits CritbitProofs CritbitSlab.
Require Import Permutation Sorted.

Lemma repr_rehandle ns ns' t h : repr ns t -> NoDup (handles t) ->
  znth ns' h = Some (contents t) ->
  (forall x, In x (handles t) -> x <> th t -> znth ns' x = znth ns x) ->
  repr ns' (rehandle t h).
Proof.
  intros R ND Hm Hx. destruct t as [h0 l|h0 p k a b]; cbn [rehandle repr th contents] in *; [auto|].
  cbn [handles] in *. inversion ND as [|? ? N1 N2]; subst. destruct R as (_ & Ra & Rb).
  split; [assumption|]. split.
  - eapply repr_ext; [|exact Ra]. intros x Hin. apply Hx; [right; apply in_or_app; auto|].
    intros ->. apply N1. apply in_or_app; auto.
  - eapply repr_ext; [|exact Rb]. intros x Hin. apply Hx; [right; apply in_or_app; auto|].
    intros ->. apply N1. apply in_or_app; auto.
Qed.
Lemma handles_rehandle t h : Permutation (th t :: handles (rehandle t h)) (h :: handles t).
Proof. destruct t; cbn; apply perm_swap. Qed.

Definition sel (b : bool) (x y : tree) : tree := if b then y else x.

Lemma remove_walk_spec s k t : forall lo fuel h p k0 a b, t = TN h p k0 a b ->
  -1 <= lo -> wft lo t -> repr (s_nodes s) t -> NoDup (handles t) -> (height t <= fuel)%nat ->
  match t_find t k with
  | None => remove_walk fuel s k h (child (th a) (th b) (kbit p k)) (kbit p k) = Ok None
  | Some l => exists par ch oth bit pp pk c0 c1 co t',
      remove_walk fuel s k h (child (th a) (th b) (kbit p k)) (kbit p k) = Ok (Some (par, ch, bit)) /\
      slab_get s par = Some (NInner pp pk c0 c1) /\ child c0 c1 bit = ch /\ child c0 c1 (negb bit) = oth /\
      slab_get s ch = Some (NLeaf l) /\ slab_get s oth = Some co /\
      t_del t k = Some t' /\ Permutation (handles t) (oth :: ch :: handles t') /\
      par <> ch /\ par <> oth /\ ch <> oth /\ In par (handles t) /\
      forall ns', znth ns' par = Some co ->
        (forall x, In x (handles t) -> x <> par -> x <> ch -> x <> oth -> znth ns' x = znth (s_nodes s) x) ->
        repr ns' t'
  end.
Proof.
  induction t as [h9 l9|h0 p0 k1 a0 IHa b0 IHb]; intros lo fuel h p k0 a b E Hlo W R ND Hf; [discriminate|].
  inversion E; subst h0 p0 k1 a0 b0. clear E.
  pose proof W as W'. cbn [wft] in W'. destruct W' as (Hp&Hk&Ha&Hb&Wa&Wb).
  pose proof R as R'. cbn [repr] in R'. destruct R' as (RT & Ra & Rb).
  cbn [handles] in ND. inversion ND as [|? ? N1 N2]; subst. destruct (NoDup_app_inv _ _ N2) as (NDa & NDb & Hdis).
  cbn [height] in Hf. destruct fuel as [|fuel]; [lia|]. cbn [t_find t_del remove_walk].
  assert (HHa : forall x, In x (handles a) -> x <> h) by (intros x Hx ->; apply N1, in_or_app; auto).
  assert (HHb : forall x, In x (handles b) -> x <> h) by (intros x Hx ->; apply N1, in_or_app; auto).
  destruct (kbit p k) eqn:B; cbn [child].
  - rewrite (repr_get _ _ Rb). destruct b as [hb lb|hb pb kb ba bb].
    + cbn [contents t_find]. destruct (l_key lb =? k) eqn:EK; [|reflexivity].
      exists h, hb, (th a), true, p, k0, (th a), hb, (contents a), (rehandle a h).
      cbn [th]. split; [reflexivity|]. split; [apply (repr_get _ _ R)|].
      do 2 (split; [reflexivity|]). split; [apply (repr_get _ _ Rb)|]. split; [apply repr_get; assumption|].
      split; [reflexivity|]. split.
      { cbn [handles]. transitivity (h :: hb :: handles a).
        { apply perm_skip. apply Permutation_sym, Permutation_cons_append. }
        etransitivity; [apply perm_swap|]. etransitivity; [|apply perm_swap]. apply perm_skip.
        apply Permutation_sym, handles_rehandle. }
      split; [apply not_eq_sym, HHb; cbn; auto|]. split; [apply not_eq_sym, HHa, th_in|].
      split; [intros Eq; apply (Hdis hb); [rewrite Eq; apply th_in|cbn; auto]|]. split; [cbn; auto|].
      intros ns' H1 H2. eapply repr_rehandle; eauto. intros x Hx Hne. apply H2; auto.
      * cbn [handles]. right. apply in_or_app; auto.
      * intros ->. eapply Hdis; eauto. cbn; auto.
    + cbn [contents]. cbn [wft] in Wb. destruct Wb as (Hpb & Wb').
      rewrite crit_bit_kbit by lia.
      specialize (IHb p fuel hb pb kb ba bb eq_refl ltac:(lia) ltac:(cbn [wft]; auto) Rb NDb ltac:(lia)).
      destruct (t_find (TN hb pb kb ba bb) k) as [l|]; [|assumption].
      destruct IHb as (par & ch & oth & bit & pp & pk & c0 & c1 & co & t' & E1 & E2 & E3 & E4 & E5 & E6 & E7 & E8 & E9 & E10 & E11 & E12 & E13).
      set (bb' := TN hb pb kb ba bb) in *.
      exists par, ch, oth, bit, pp, pk, c0, c1, co, (TN h p k0 a t').
      do 6 (split; [assumption|]). cbn [t_del] in E7 |- *. rewrite E7. split; [reflexivity|].
      assert (Inoth : In oth (handles bb')) by (eapply Permutation_in; [apply Permutation_sym, E8|cbn; auto]).
      assert (Inch : In ch (handles bb')) by (eapply Permutation_in; [apply Permutation_sym, E8|cbn; auto]).
      split.
      { cbn [handles]. fold bb'. rewrite E8. transitivity (h :: oth :: ch :: handles a ++ handles t').
        { apply perm_skip. etransitivity; [apply Permutation_sym, Permutation_middle|].
          apply perm_skip. apply Permutation_sym, Permutation_middle. }
        etransitivity; [apply perm_swap|]. apply perm_skip. apply perm_swap. }
      do 3 (split; [assumption|]). split; [cbn [handles]; right; apply in_or_app; auto|].
      intros ns' H1 H2. cbn [repr th contents]. 
      assert (TH : th t' = th bb').
      { clear - E7. unfold bb' in *. cbn [t_del] in E7. destruct (kbit pb k).
        - destruct bb; [inversion E7; apply th_rehandle|]. destruct (t_del _ _); inversion E7; reflexivity.
        - destruct ba; [inversion E7; apply th_rehandle|]. destruct (t_del _ _); inversion E7; reflexivity. }
      rewrite TH. split; [|split].
      * rewrite H2; [exact RT|cbn; auto|apply not_eq_sym, HHb; assumption|apply not_eq_sym, HHb; assumption|apply not_eq_sym, HHb; assumption].
      * eapply repr_ext; [|exact Ra]. intros x Hx. apply H2.
        { cbn [handles]. right. apply in_or_app; auto. }
        all: intros Eq; apply (Hdis x); [|]; first [assumption|rewrite Eq; assumption].
      * apply E13; [assumption|]. intros x Hx ? ? ?. apply H2; auto. cbn [handles]. right. apply in_or_app; auto.
  - rewrite (repr_get _ _ Ra). destruct a as [hb lb|hb pb kb ba bb].
    + cbn [contents t_find]. destruct (l_key lb =? k) eqn:EK; [|reflexivity].
      exists h, hb, (th b), false, p, k0, hb, (th b), (contents b), (rehandle b h).
      cbn [th]. split; [reflexivity|]. split; [apply (repr_get _ _ R)|].
      do 2 (split; [reflexivity|]). split; [apply (repr_get _ _ Ra)|]. split; [apply repr_get; assumption|].
      split; [reflexivity|]. split.
      { cbn [handles app]. 
        etransitivity; [apply perm_swap|]. etransitivity; [|apply perm_swap]. apply perm_skip.
        apply Permutation_sym, handles_rehandle. }
      split; [apply not_eq_sym, HHa; cbn; auto|]. split; [apply not_eq_sym, HHb, th_in|].
      split; [intros Eq; apply (Hdis hb); [cbn; auto|rewrite Eq; apply th_in]|]. split; [cbn; auto|].
      intros ns' H1 H2. eapply repr_rehandle; eauto. intros x Hx Hne. apply H2; auto.
      * cbn [handles]. right. apply in_or_app; auto.
      * intros ->. eapply Hdis; eauto. cbn; auto.
    + cbn [contents]. cbn [wft] in Wa. destruct Wa as (Hpb & Wb').
      rewrite crit_bit_kbit by lia.
      specialize (IHa p fuel hb pb kb ba bb eq_refl ltac:(lia) ltac:(cbn [wft]; auto) Ra NDa ltac:(lia)).
      destruct (t_find (TN hb pb kb ba bb) k) as [l|]; [|assumption].
      destruct IHa as (par & ch & oth & bit & pp & pk & c0 & c1 & co & t' & E1 & E2 & E3 & E4 & E5 & E6 & E7 & E8 & E9 & E10 & E11 & E12 & E13).
      set (bb' := TN hb pb kb ba bb) in *.
      exists par, ch, oth, bit, pp, pk, c0, c1, co, (TN h p k0 t' b).
      do 6 (split; [assumption|]). cbn [t_del] in E7 |- *. rewrite E7. split; [reflexivity|].
      assert (Inoth : In oth (handles bb')) by (eapply Permutation_in; [apply Permutation_sym, E8|cbn; auto]).
      assert (Inch : In ch (handles bb')) by (eapply Permutation_in; [apply Permutation_sym, E8|cbn; auto]).
      split.
      { cbn [handles]. fold bb'. rewrite E8. cbn [app].
        etransitivity; [apply perm_swap|]. apply perm_skip. apply perm_swap. }
      do 3 (split; [assumption|]). split; [cbn [handles]; right; apply in_or_app; auto|].
      intros ns' H1 H2. cbn [repr th contents]. 
      assert (TH : th t' = th bb').
      { clear - E7. unfold bb' in *. cbn [t_del] in E7. destruct (kbit pb k).
        - destruct bb; [inversion E7; apply th_rehandle|]. destruct (t_del _ _); inversion E7; reflexivity.
        - destruct ba; [inversion E7; apply th_rehandle|]. destruct (t_del _ _); inversion E7; reflexivity. }
      rewrite TH. split; [|split].
      * rewrite H2; [exact RT|cbn; auto|apply not_eq_sym, HHa; assumption|apply not_eq_sym, HHa; assumption|apply not_eq_sym, HHa; assumption].
      * apply E13; [assumption|]. intros x Hx ? ? ?. apply H2; auto. cbn [handles]. right. apply in_or_app; auto.
      * eapply repr_ext; [|exact Rb]. intros x Hx. apply H2.
        { cbn [handles]. right. apply in_or_app; auto. }
        all: intros Eq; apply (Hdis x); [|]; first [assumption|rewrite Eq; assumption].
Qed.

Lemma ldel_len_some k l x : sorted l -> lfind k l = Some x -> zlen (ldel k l) = zlen l - 1.
Proof.
  intros S F. induction S as [|z l S IH Fa]; [discriminate|]. unfold ldel in *. cbn [filter]. unfold lfind in F. cbn [find] in F.
  destruct (l_key z =? k) eqn:E; cbn [negb].
  - change (filter _ l) with (ldel k l). rewrite ldel_none.
    + rewrite zlen_cons. lia.
    + intros y Hy. rewrite Forall_forall in Fa. specialize (Fa y Hy). unfold klt in Fa. lia.
  - rewrite !zlen_cons, IH by assumption. lia.
Qed.

Theorem remove_by_key_spec s k : slab_ok s ->
  exists s', remove_by_key s k = Ok (s', lfind k (book s)) /\ slab_ok s' /\ same_cap s s' /\
             book s' = ldel k (book s).
Proof.
  intros (ot & fl & R). unfold remove_by_key. rewrite (slab_root_rep _ _ _ R), (book_rep _ _ _ R).
  destruct ot as [t|].
  2:{ exists s. split; [reflexivity|]. split; [eexists _, _; eassumption|]. split; [reflexivity|].
      rewrite (book_rep _ _ _ R). reflexivity. }
  cbn [oleaves]. pose proof R as R'. destruct R' as [H Hl (Hr & Rp & W)]. cbn [ohandles oleaves] in *.
  rewrite (repr_get _ _ Rp). pose proof (heap_nodup_us _ _ _ H) as ND.
  destruct t as [h l|h p k0 a b].
  - cbn [contents th]. destruct (l_key l =? k) eqn:E.
    + cbn [leaves] in Hl. rewrite zlen_cons, zlen_nil in Hl. rewrite Hl. cbn [Z.add Z.eqb Pos.eqb].
      set (s0 := set_root_leafs s 0 0).
      assert (H0 : heap s0 [h] fl) by (eapply heap_ext with (s := s); try reflexivity; assumption).
      assert (G0 : slab_get s0 h = Some (NLeaf l)) by (apply (repr_get _ _ Rp)).
      destruct (heap_free s0 [h] [] fl h _ H0 (Permutation_refl _) G0) as (s1 & f & C1 & C2 & C3 & C4 & C5).
      rewrite C1. cbn [unwrap rbind]. exists s1.
      assert (RS : slab_rep s1 None (h :: fl)) by (constructor; [assumption|rewrite C5; reflexivity|exact I]).
      split; [cbn; rewrite E; reflexivity|]. split; [eexists _, _; exact RS|].
      split; [unfold same_cap; rewrite C3, zupd_len; reflexivity|].
      rewrite (book_rep _ _ _ RS). cbn. rewrite E. reflexivity.
    + exists s. split; [cbn; rewrite E; reflexivity|]. split; [eexists _, _; eassumption|]. split; [reflexivity|].
      rewrite (book_rep _ _ _ R). cbn. rewrite E. reflexivity.
  - cbn [contents]. pose proof W as W'. cbn [wft] in W'. destruct W' as (Hp&_).
    rewrite crit_bit_kbit by lia. cbn [th].
    pose proof (remove_walk_spec s k (TN h p k0 a b) (-1) depth_fuel h p k0 a b eq_refl ltac:(lia) W Rp ND (height_fuel _ W)) as F.
    pose proof (leaves_sorted (-1) _ ltac:(lia) W) as SL.
    pose proof (t_del_spec (-1) (TN h p k0 a b) k) as TD.
    rewrite (t_find_lfind (-1)) in F, TD by (auto; lia).
    set (t := TN h p k0 a b) in *.
    destruct (lfind k (leaves t)) as [l|] eqn:EF.
    + destruct F as (par & ch & oth & bit & pp & pk & c0 & c1 & co & t' & E1 & E2 & E3 & E4 & E5 & E6 & E7 & E8 & E9 & E10 & E11 & E12 & E13).
      specialize (TD l ltac:(lia) W eq_refl). destruct TD as (t'' & T1 & T2 & T3 & T4).
      assert (t'' = t') by congruence. subst t''.
      rewrite E1. cbn [rbind]. rewrite E2, E4.
      destruct (heap_free s (handles t) (ch :: handles t') fl oth _ H E8 E6) as (s1 & f & C1 & C2 & C3 & C4 & C5).
      rewrite C1. cbn [unwrap rbind].
      assert (BO : 0 <= oth < zlen (s_nodes s)) by (apply slab_get_inv in E6; destruct E6; eapply znth_Some; eauto).
      assert (BP : 0 <= par < zlen (s_nodes s)) by (eapply repr_bound; eauto).
      assert (BC : 0 <= ch < zlen (s_nodes s)) by (apply slab_get_inv in E5; destruct E5; eapply znth_Some; eauto).
      assert (LEN1 : zlen (s_nodes s1) = zlen (s_nodes s)) by (rewrite C3, zupd_len; reflexivity).
      assert (G1 : slab_get s1 par = Some (NInner pp pk c0 c1)).
      { apply slab_get_inv in E2. destruct E2. apply get_live; [|assumption]. rewrite C3, znth_zupd_other by congruence. assumption. }
      rewrite G1. cbn [unwrap rbind].
      set (s3 := set_root_leafs _ _ _).
      assert (InP : In par (handles t')).
      { eapply Permutation_in in E12; [|exact E8]. cbn in E12. intuition congruence. }
      assert (H3 : heap s3 (ch :: handles t') (oth :: fl)).
      { eapply heap_ext with (s := slab_set s1 par co); try reflexivity.
        apply heap_set; [assumption|]. eapply heap_disj; [eassumption|]. cbn; auto. }
      assert (G3 : slab_get s3 ch = Some (NLeaf l)).
      { apply slab_get_inv in E5. destruct E5. apply get_live; [|assumption]. unfold s3. cbn.
        rewrite znth_zupd_other by congruence. rewrite C3, znth_zupd_other by congruence. assumption. }
      destruct (heap_free s3 (ch :: handles t') (handles t') (oth :: fl) ch _ H3 (Permutation_refl _) G3) as (s4 & f4 & D1 & D2 & D3 & D4 & D5).
      rewrite D1. cbn [unwrap rbind]. exists s4. split; [reflexivity|].
      assert (RS : slab_rep s4 (Some t') (ch :: oth :: fl)).
      { constructor; cbn [ohandles oleaves]; [assumption| |].
        - rewrite D5. unfold s3. cbn [set_root_leafs slab_set s_leafs]. rewrite C5, Hl, T2, (ldel_len_some _ _ _ SL EF).
          pose proof (heap_count _ _ _ H). pose proof (hp_u32 _ _ _ H). pose proof (zlen_nonneg fl).
          pose proof (handles_len t). pose proof (leaves_len_pos t). apply w64_small. lia.
        - split; [rewrite D4; unfold s3; cbn [set_root_leafs slab_set s_root]; congruence|].
          split; [|assumption]. apply E13.
          + rewrite D3, znth_zupd_other by congruence. unfold s3. cbn. apply znth_zupd_same. rewrite LEN1. assumption.
          + intros x Hx Hn1 Hn2 Hn3. rewrite D3, znth_zupd_other by congruence. unfold s3. cbn.
            rewrite znth_zupd_other by congruence. rewrite C3, znth_zupd_other by congruence. reflexivity. }
      split; [eexists _, _; exact RS|]. split.
      { unfold same_cap. rewrite D3, zupd_len. unfold s3. cbn. rewrite zupd_len. assumption. }
      rewrite (book_rep _ _ _ RS). exact T2.
    + rewrite F. cbn [rbind]. exists s. split; [reflexivity|]. split; [eexists _, _; eassumption|]. split; [reflexivity|].
      rewrite (book_rep _ _ _ R). cbn [oleaves]. symmetry. apply ldel_none. rewrite lfind_None in EF. exact EF.
Qed.

(** * Extremes *)
Definition first_leaf (b : bool) (l : list leaf) : option leaf :=
  hd_error (if b then rev l else l).

Lemma hd_error_app {A} (a b : list A) : hd_error (a ++ b) = match hd_error a with Some x => Some x | None => hd_error b end.
Proof. destruct a; reflexivity. Qed.
Lemma first_leaf_tree b t : exists l, first_leaf b (leaves t) = Some l.
Proof.
  unfold first_leaf. destruct (leaves t) eqn:E.
  - destruct (leaves_nonempty t) as [x Hx]. rewrite E in Hx. destruct Hx.
  - destruct b; cbn; [|eauto]. destruct (rev l0); cbn; eauto.
Qed.
Lemma first_leaf_child b a c : first_leaf b (leaves a ++ leaves c) = first_leaf b (leaves (sel b a c)).
Proof.
  unfold sel. destruct b.
  - destruct (first_leaf_tree true c) as [l Hl]. rewrite Hl. unfold first_leaf in *.
    rewrite rev_app_distr, hd_error_app, Hl. reflexivity.
  - destruct (first_leaf_tree false a) as [l Hl]. rewrite Hl. unfold first_leaf in *.
    rewrite hd_error_app, Hl. reflexivity.
Qed.

Lemma find_min_max_loop_spec s b t : forall fuel, repr (s_nodes s) t -> (height t <= fuel)%nat ->
  exists h l, find_min_max_loop fuel s b (th t) = Ok h /\ slab_get s h = Some (NLeaf l) /\
              first_leaf b (leaves t) = Some l /\ In h (handles t).
Proof.
  induction t as [h l|h p k a IHa c IHc]; intros fuel R Hf.
  - destruct fuel; cbn [height] in Hf; [lia|]. cbn [find_min_max_loop]. rewrite (repr_get _ _ R). cbn [contents].
    exists h, l. split; [reflexivity|]. split; [apply (repr_get _ _ R)|]. split; [destruct b; reflexivity|cbn; auto].
  - destruct fuel; cbn [height] in Hf; [lia|]. cbn [find_min_max_loop]. rewrite (repr_get _ _ R). cbn [contents].
    cbn [repr] in R. destruct R as (_ & Ra & Rb). cbn [leaves]. rewrite first_leaf_child. destruct b; cbn [child sel].
    + destruct (IHc fuel Rb ltac:(lia)) as (h' & l & E1 & E2 & E3 & E4). exists h', l.
      repeat split; auto. cbn [handles]. right. apply in_or_app; auto.
    + destruct (IHa fuel Ra ltac:(lia)) as (h' & l & E1 & E2 & E3 & E4). exists h', l.
      repeat split; auto. cbn [handles]. right. apply in_or_app; auto.
Qed.

(** A handle of the slab that holds a resting order. *)
Definition leaf_at (s : slab) (h : Z) (l : leaf) : Prop :=
  slab_get s h = Some (NLeaf l) /\ 0 <= h < s_bump s.

Theorem find_min_max_spec s b : slab_ok s ->
  match first_leaf b (book s) with
  | None => find_min_max s b = Ok None /\ book s = []
  | Some l => exists h, find_min_max s b = Ok (Some h) /\ leaf_at s h l
  end.
Proof.
  intros (ot & fl & R). unfold find_min_max. rewrite (slab_root_rep _ _ _ R), (book_rep _ _ _ R).
  destruct ot as [t|]; cbn [oleaves].
  - pose proof R as R'. destruct R' as [H Hl (Hr & Rp & W)].
    destruct (find_min_max_loop_spec s b t depth_fuel Rp (height_fuel _ W)) as (h & l & E1 & E2 & E3 & E4).
    rewrite E3. exists h. rewrite E1. cbn [rbind]. split; [reflexivity|]. split; [assumption|].
    apply (hp_cover _ _ _ H). apply in_or_app. auto.
  - destruct b; cbn; auto.
Qed.

Lemma leaf_at_in s h l ot fl : slab_rep s ot fl -> leaf_at s h l -> In h (ohandles ot).
Proof.
  intros [H _ _] [G B]. apply (hp_cover _ _ _ H) in B. apply in_app_or in B. destruct B as [B|B]; [assumption|].
  exfalso. destruct (chain_dead _ _ _ _ (hp_chain _ _ _ H) B) as (n & E1 & E2).
  apply slab_get_inv in G. destruct G as [G1 G2]. congruence.
Qed.
Lemma tree_leaf_in ns t h l : repr ns t -> In h (handles t) -> znth ns h = Some (NLeaf l) -> In l (leaves t).
Proof.
  induction t as [h0 l0|h0 p k a IHa b IHb]; cbn [repr handles th leaves contents]; intros [R1 R2] Hin E.
  - destruct Hin as [<-|[]]. left. congruence.
  - destruct R2 as [Ra Rb]. destruct Hin as [<-|Hin]; [congruence|].
    apply in_or_app. apply in_app_or in Hin. destruct Hin; auto.
Qed.
Lemma leaf_at_book s h l : slab_ok s -> leaf_at s h l -> In l (book s).
Proof.
  intros (ot & fl & R) L. rewrite (book_rep _ _ _ R). pose proof (leaf_at_in _ _ _ _ _ R L) as Hin.
  destruct ot as [t|]; [|destruct Hin]. destruct R as [_ _ (_ & Rp & _)]. destruct L as [G _].
  apply slab_get_inv in G. destruct G as [G1 G2]. cbn. eapply tree_leaf_in; eauto.
Qed.

(** * Overwriting a leaf in place with the same key *)
Fixpoint t_set (t : tree) (h : Z) (l : leaf) : tree :=
  match t with
  | TL h0 l0 => if h0 =? h then TL h0 l else t
  | TN h0 p k a b => TN h0 p k (t_set a h l) (t_set b h l)
  end.
Lemma t_set_handles t h l : handles (t_set t h l) = handles t.
Proof. induction t as [h0 l0|h0 p k a IHa b IHb]; cbn; [destruct (h0 =? h); reflexivity|congruence]. Qed.
Lemma t_set_th t h l : th (t_set t h l) = th t.
Proof. destruct t as [h0 l0|h0 p k a b]; cbn; [destruct (h0 =? h); reflexivity|reflexivity]. Qed.
Lemma t_set_out t h l : ~ In h (handles t) -> t_set t h l = t.
Proof.
  induction t as [h0 l0|h0 p k a IHa b IHb]; cbn; intros H.
  - replace (h0 =? h) with false by lia. reflexivity.
  - rewrite IHa, IHb; [reflexivity| |]; intros F; apply H; right; apply in_or_app; auto.
Qed.
Definition lset (l : leaf) (bk : list leaf) : list leaf :=
  map (fun x => if l_key x =? l_key l then l else x) bk.
Lemma lset_out l bk : (forall x, In x bk -> l_key x <> l_key l) -> lset l bk = bk.
Proof.
  intros H. unfold lset. rewrite <- (map_id bk) at 2. apply map_ext_in. intros x Hx.
  specialize (H x Hx). replace (l_key x =? l_key l) with false by lia. reflexivity.
Qed.
Lemma lset_app l a b : lset l (a ++ b) = lset l a ++ lset l b.
Proof. apply map_app. Qed.
Lemma lset_keys l bk : map l_key (lset l bk) = map l_key bk.
Proof. unfold lset. rewrite map_map. apply map_ext. intros x. destruct (l_key x =? l_key l) eqn:E; [lia|reflexivity]. Qed.
Lemma lset_len l bk : zlen (lset l bk) = zlen bk.
Proof. unfold zlen, lset. rewrite map_length. reflexivity. Qed.

Lemma t_set_spec ns t h l0 l : forall lo, -1 <= lo -> wft lo t -> repr ns t -> NoDup (handles t) ->
  In h (handles t) -> znth ns h = Some (NLeaf l0) -> l_key l = l_key l0 ->
  leaves (t_set t h l) = lset l (leaves t) /\ wft lo (t_set t h l) /\
  forall ns', znth ns' h = Some (NLeaf l) -> (forall x, In x (handles t) -> x <> h -> znth ns' x = znth ns x) ->
    repr ns' (t_set t h l).
Proof.
  induction t as [h1 l1|h1 p k a IHa b IHb]; intros lo Hlo W R ND Hin E Ek.
  - cbn [t_set]. cbn in Hin. destruct Hin as [->|[]]. rewrite Z.eqb_refl.
    cbn in R. destruct R as [R _]. assert (l1 = l0) by congruence. subst l1.
    split; [cbn; rewrite Ek, Z.eqb_refl; reflexivity|]. split; [cbn; rewrite Ek; exact W|]. cbn. auto.
  - pose proof (wft_split _ _ _ _ _ _ W Hlo) as SP.
    cbn [wft] in W. destruct W as (Hp&Hk&Ha&Hb&Wa&Wb). cbn [repr] in R. destruct R as (RT & Ra & Rb).
    cbn [handles] in *. inversion ND as [|? ? N1 N2]; subst. destruct (NoDup_app_inv _ _ N2) as (NDa & NDb & Hdis).
    destruct Hin as [->|Hin]; [cbn in RT; congruence|].
    cbn [t_set leaves]. rewrite lset_app. apply in_app_or in Hin. destruct Hin as [Hin|Hin].
    + rewrite (t_set_out b) by (intros F; eauto).
      destruct (IHa p ltac:(lia) Wa Ra NDa Hin E Ek) as (I1 & I2 & I3).
      assert (La : In l0 (leaves a)) by (eapply tree_leaf_in; eauto).
      rewrite I1, (lset_out l (leaves b)).
      2:{ intros x Hx. specialize (SP l0 x La Hx). unfold klt in SP. lia. }
      split; [reflexivity|]. split.
      * cbn [wft]. split; [lia|]. split; [assumption|]. split; [|split; [assumption|split; assumption]].
        rewrite I1. intros x Hx. unfold lset in Hx. apply in_map_iff in Hx. destruct Hx as (y & E1 & E2).
        destruct (l_key y =? l_key l) eqn:E3; subst x; [|auto].
        replace (l_key l) with (l_key y) by lia. auto.
      * intros ns' H1 H2. cbn [repr th contents]. rewrite t_set_th. split; [|split].
        -- rewrite H2; [exact RT|cbn; auto|]. intros ->. apply N1, in_or_app; auto.
        -- apply I3; [assumption|]. intros x Hx Hne. apply H2; [right; apply in_or_app; auto|assumption].
        -- eapply repr_ext; [|exact Rb]. intros x Hx. apply H2; [right; apply in_or_app; auto|]. intros ->; eauto.
    + rewrite (t_set_out a) by (intros F; eauto).
      destruct (IHb p ltac:(lia) Wb Rb NDb Hin E Ek) as (I1 & I2 & I3).
      assert (La : In l0 (leaves b)) by (eapply tree_leaf_in; eauto).
      rewrite I1, (lset_out l (leaves a)).
      2:{ intros x Hx. specialize (SP x l0 Hx La). unfold klt in SP. lia. }
      split; [reflexivity|]. split.
      * cbn [wft]. split; [lia|]. split; [assumption|]. split; [assumption|split; [|split; assumption]].
        rewrite I1. intros x Hx. unfold lset in Hx. apply in_map_iff in Hx. destruct Hx as (y & E1 & E2).
        destruct (l_key y =? l_key l) eqn:E3; subst x; [|auto].
        replace (l_key l) with (l_key y) by lia. auto.
      * intros ns' H1 H2. cbn [repr th contents]. rewrite t_set_th. split; [|split].
        -- rewrite H2; [exact RT|cbn; auto|]. intros ->. apply N1, in_or_app; auto.
        -- eapply repr_ext; [|exact Ra]. intros x Hx. apply H2; [right; apply in_or_app; auto|]. intros ->; eauto.
        -- apply I3; [assumption|]. intros x Hx Hne. apply H2; [right; apply in_or_app; auto|assumption].
Qed.

Theorem slab_set_spec s h l0 l : slab_ok s -> leaf_at s h l0 -> l_key l = l_key l0 ->
  slab_ok (slab_set s h (NLeaf l)) /\ book (slab_set s h (NLeaf l)) = lset l (book s) /\
  same_cap s (slab_set s h (NLeaf l)).
Proof.
  intros (ot & fl & R) L Ek. pose proof (leaf_at_in _ _ _ _ _ R L) as Hin.
  destruct ot as [t|]; [|destruct Hin]. cbn in Hin. rewrite (book_rep _ _ _ R). cbn [oleaves].
  pose proof R as R'. destruct R' as [H Hl (Hr & Rp & W)]. cbn [ohandles oleaves] in *.
  destruct L as [G B]. apply slab_get_inv in G. destruct G as [G1 _].
  destruct (t_set_spec (s_nodes s) t h l0 l (-1) ltac:(lia) W Rp (heap_nodup_us _ _ _ H) Hin G1 Ek) as (I1 & I2 & I3).
  assert (RS : slab_rep (slab_set s h (NLeaf l)) (Some (t_set t h l)) fl).
  { constructor; cbn [ohandles oleaves].
    - rewrite t_set_handles. apply heap_set; [assumption|]. eapply heap_disj; eauto.
    - cbn. rewrite I1, lset_len. assumption.
    - rewrite t_set_th. split; [assumption|]. split; [|assumption]. apply I3; cbn.
      + apply znth_zupd_same. eapply znth_Some; eauto.
      + intros. apply znth_zupd_other. congruence. }
  split; [eexists _, _; exact RS|]. rewrite (book_rep _ _ _ RS). split; [assumption|].
  unfold same_cap. cbn. apply zupd_len.
Qed.

(** * Removing the extreme *)
Theorem remove_extreme_spec s b : slab_ok s ->
  exists s', remove_extreme s b = Ok (s', first_leaf b (book s)) /\ slab_ok s' /\ same_cap s s' /\
    book s' = match first_leaf b (book s) with None => book s | Some l => ldel (l_key l) (book s) end.
Proof.
  intros H. unfold remove_extreme. pose proof (find_min_max_spec s b H) as F.
  destruct (first_leaf b (book s)) as [l|] eqn:E.
  - destruct F as (h & F1 & F2). rewrite F1. cbn [rbind]. destruct F2 as [G B]. rewrite G. cbn [node_key].
    destruct (remove_by_key_spec s (l_key l) H) as (s' & E1 & E2 & E3 & E4).
    exists s'. rewrite E1. split; [|auto]. do 2 f_equal.
    apply lfind_In; [apply book_sorted; assumption| |reflexivity].
    apply (leaf_at_book _ h); [assumption|split; assumption].
  - destruct F as [F1 F2]. rewrite F1. cbn [rbind]. exists s. split; [reflexivity|]. split; [assumption|].
    split; reflexivity.
Qed.

(** * Enumeration by predicate *)
Fixpoint tsize (t : tree) : nat := match t with TL _ _ => 1 | TN _ _ _ a b => S (tsize a + tsize b) end.
Fixpoint ssize (ts : list tree) : nat := match ts with [] => 0 | t :: r => tsize t + ssize r end.

Lemma find_by_loop_spec s p : forall limit ts found, (forall t, In t ts -> repr (s_nodes s) t) ->
  exists new rest, fst (find_by_loop limit s p (map th ts) found) = found ++ new /\
    new ++ rest = map l_key (filter p (flat_map (fun t => rev (leaves t)) ts)) /\
    ((ssize ts <= limit)%nat -> rest = [] /\ snd (find_by_loop limit s p (map th ts) found) = (limit - ssize ts)%nat).
Proof.
  induction limit as [|n IH]; intros ts found R.
  - cbn. eexists [], _. split; [symmetry; apply app_nil_r|]. split; [reflexivity|].
    destruct ts as [|t ts]; [auto|]. cbn. intros Hs. destruct t; cbn in Hs; lia.
  - destruct ts as [|t ts]; cbn [map find_by_loop].
    + exists [], []. cbn. split; [symmetry; apply app_nil_r|]. split; [reflexivity|]. split; [reflexivity|]. reflexivity.
    + rewrite (repr_get s t) by (apply R; cbn; auto). destruct t as [h l|h q k a b]; cbn [contents].
      * destruct (IH ts (if p l then found ++ [l_key l] else found)) as (new & rest & E1 & E2 & E3).
        { intros; apply R; cbn; auto. }
        cbn [flat_map leaves rev app filter]. destruct (p l) eqn:Ep.
        -- exists (l_key l :: new), rest. split; [rewrite E1, <- app_assoc; reflexivity|].
           split; [cbn; rewrite E2; reflexivity|]. cbn [ssize tsize]. intros Hs.
           destruct (E3 ltac:(lia)) as [E4 E5]. split; [assumption|]. rewrite E5. lia.
        -- exists new, rest. split; [assumption|]. split; [assumption|]. cbn [ssize tsize]. intros Hs.
           destruct (E3 ltac:(lia)) as [E4 E5]. split; [assumption|]. rewrite E5. lia.
      * assert (Rt : repr (s_nodes s) (TN h q k a b)) by (apply R; cbn; auto).
        cbn [repr] in Rt. destruct Rt as (_ & Ra & Rb).
        destruct (IH (b :: a :: ts) found) as (new & rest & E1 & E2 & E3).
        { intros t [<-|[<-|Ht]]; auto. apply R; cbn; auto. }
        exists new, rest. cbn [map] in E1. split; [assumption|]. split.
        -- rewrite E2. cbn [flat_map leaves]. rewrite rev_app_distr, app_assoc. reflexivity.
        -- cbn [ssize tsize] in *. intros Hs. destruct (E3 ltac:(lia)) as [E4 E5]. split; [assumption|].
           cbn [map] in E5. rewrite E5. lia.
Qed.

Lemma tsize_leaves t : Z.of_nat (tsize t) = 2 * zlen (leaves t) - 1.
Proof.
  induction t as [h l|h p k a IHa b IHb]; [reflexivity|].
  cbn [tsize leaves]. rewrite zlen_app. lia.
Qed.

Theorem find_by_spec s limit p : slab_ok s ->
  exists rest, fst (find_by s limit p) ++ rest = map l_key (filter p (rev (book s))) /\
    (nodes_for (zlen (book s)) <= Z.of_nat limit ->
       rest = [] /\ Z.of_nat (snd (find_by s limit p)) = Z.of_nat limit - nodes_for (zlen (book s))).
Proof.
  intros (ot & fl & R). unfold find_by. rewrite (slab_root_rep _ _ _ R), (book_rep _ _ _ R).
  destruct ot as [t|]; cbn [oleaves].
  - destruct R as [_ _ (_ & Rp & _)].
    destruct (find_by_loop_spec s p limit [t] []) as (new & rest & E1 & E2 & E3).
    { intros t' [<-|[]]. assumption. }
    cbn [map app] in *. exists rest. rewrite E1. cbn [flat_map] in E2. rewrite app_nil_r in E2.
    split; [assumption|]. unfold nodes_for. pose proof (leaves_len_pos t).
    replace (zlen (leaves t) =? 0) with false by lia. intros Hl. cbn [ssize] in E3.
    pose proof (tsize_leaves t). destruct (E3 ltac:(lia)) as [E4 E5]. split; [assumption|].
    rewrite E5. lia.
  - exists []. cbn. split; [reflexivity|]. change (nodes_for (zlen (@nil leaf))) with 0. intros. split; [reflexivity|]. lia.
Qed.
