(** The node array, header and free list of Critbit.v represent the trees of CritbitProofs.v. *)
From Verif Require Import Base BaseProofs Critbit CritbitBits CritbitProofs.
Require Import Permutation Sorted.

Definition live (n : node) : Prop := match n with NInner _ _ _ _ | NLeaf _ => True | _ => False end.

Lemma contents_live t : live (contents t).
Proof. destruct t; exact I. Qed.
Lemma get_live s h n : znth (s_nodes s) h = Some n -> live n -> slab_get s h = Some n.
Proof. intros H L. unfold slab_get. rewrite H. destruct n; try destruct L; reflexivity. Qed.
Lemma slab_get_inv s h n : slab_get s h = Some n -> znth (s_nodes s) h = Some n /\ live n.
Proof.
  unfold slab_get. destruct (znth (s_nodes s) h) as [m|] eqn:E; [|discriminate].
  destruct m; try discriminate; intros H; inversion H; cbn; auto.
Qed.

Lemma repr_ext ns ns' t : (forall h, In h (handles t) -> znth ns' h = znth ns h) -> repr ns t -> repr ns' t.
Proof.
  induction t as [h l|h p k a IHa b IHb]; cbn [repr th handles]; intros E [H1 H2].
  - rewrite E by (cbn; auto). auto.
  - rewrite E by (cbn; auto). split; [assumption|]. destruct H2. split.
    + apply IHa; [|assumption]. intros. apply E. cbn. right. apply in_or_app. auto.
    + apply IHb; [|assumption]. intros. apply E. cbn. right. apply in_or_app. auto.
Qed.
Lemma repr_top ns t : repr ns t -> znth ns (th t) = Some (contents t).
Proof. destruct t; cbn [repr]; tauto. Qed.
Lemma repr_get s t : repr (s_nodes s) t -> slab_get s (th t) = Some (contents t).
Proof. intros H. apply get_live; [apply repr_top; assumption|apply contents_live]. Qed.
Lemma repr_live ns t h : repr ns t -> In h (handles t) -> exists n, znth ns h = Some n /\ live n.
Proof.
  induction t as [h0 l|h0 p k a IHa b IHb]; cbn [repr th handles]; intros [H1 H2] Hin.
  - destruct Hin as [<-|[]]. eexists. split; [eassumption|exact I].
  - destruct H2. destruct Hin as [<-|Hin]; [eexists; split; [eassumption|exact I]|].
    apply in_app_or in Hin. destruct Hin; auto.
Qed.
Lemma repr_bound ns t h : repr ns t -> In h (handles t) -> 0 <= h < zlen ns.
Proof. intros H Hin. destruct (repr_live _ _ _ H Hin) as (n & E & _). eapply znth_Some; eauto. Qed.

(** * The free list *)
Fixpoint chain (ns : list node) (hd : Z) (fl : list Z) : Prop :=
  match fl with
  | [] => True
  | h :: r => hd = h /\ exists next,
      znth ns h = Some (match r with [] => NLastFree next | _ => NFree next end) /\ chain ns next r
  end.
Lemma chain_ext ns ns' hd fl : (forall h, In h fl -> znth ns' h = znth ns h) -> chain ns hd fl -> chain ns' hd fl.
Proof.
  revert hd. induction fl as [|h r IH]; cbn [chain]; intros hd E H; [exact I|].
  destruct H as [-> (next & H1 & H2)]. split; [reflexivity|]. exists next. split.
  - rewrite E by (cbn; auto). assumption.
  - apply IH; [|assumption]. intros. apply E. cbn; auto.
Qed.
Lemma chain_dead ns hd fl h : chain ns hd fl -> In h fl -> exists n, znth ns h = Some n /\ ~ live n.
Proof.
  revert hd. induction fl as [|h0 r IH]; cbn [chain]; intros hd H Hin; [destruct Hin|].
  destruct H as [-> (next & H1 & H2)]. destruct Hin as [->|Hin]; eauto.
  eexists. split; [eassumption|]. destruct r; cbn; auto.
Qed.

(** [us]: handles in use; [fl]: the free list. *)
Record heap (s : slab) (us fl : list Z) : Prop := {
  hp_bump : 0 <= s_bump s <= zlen (s_nodes s);
  hp_u32 : s_bump s <= 4294967295;
  hp_len : s_free_len s = zlen fl;
  hp_chain : chain (s_nodes s) (s_free_head s) fl;
  hp_nodup : NoDup (us ++ fl);
  hp_cover : forall h, In h (us ++ fl) <-> 0 <= h < s_bump s
}.

Definition slab_cap (s : slab) : Z := Z.min (zlen (s_nodes s)) 4294967295.

Lemma range_len (l : list Z) n : NoDup l -> 0 <= n -> (forall h, In h l <-> 0 <= h < n) -> zlen l = n.
Proof.
  intros ND Hn Hc.
  assert (P : Permutation l (map Z.of_nat (seq 0 (Z.to_nat n)))).
  { apply NoDup_Permutation; [assumption| |].
    - apply FinFun.Injective_map_NoDup; [intros a b; lia|apply seq_NoDup].
    - intros x. rewrite Hc, in_map_iff. split.
      + intros. exists (Z.to_nat x). rewrite in_seq. lia.
      + intros (y & <- & Hy). rewrite in_seq in Hy. lia. }
  apply Permutation_length in P. unfold zlen. rewrite P, map_length, seq_length. lia.
Qed.
Lemma heap_count s us fl : heap s us fl -> zlen us + zlen fl = s_bump s.
Proof.
  intros H. rewrite <- zlen_app. apply range_len; [apply H|pose proof (hp_bump _ _ _ H); lia|apply H].
Qed.
Lemma heap_perm s us us' fl : Permutation us us' -> heap s us fl -> heap s us' fl.
Proof.
  intros P H. destruct H. constructor; auto.
  - eapply Permutation_NoDup; [|eassumption]. apply Permutation_app_tail. assumption.
  - intros h. rewrite <- hp_cover0, !in_app_iff. split; intros [Hi|Hi]; auto; left.
    + eapply Permutation_in; [apply Permutation_sym|]; eassumption.
    + eapply Permutation_in; eassumption.
Qed.
Lemma heap_disj s us fl h : heap s us fl -> In h us -> ~ In h fl.
Proof.
  intros H Hi Hf. pose proof (hp_nodup _ _ _ H) as ND.
  apply in_split in Hi. destruct Hi as (a & b & ->). rewrite <- app_assoc in ND.
  apply NoDup_remove_2 in ND. apply ND. rewrite !in_app_iff. auto.
Qed.
Lemma heap_nodup_us s us fl : heap s us fl -> NoDup us.
Proof.
  intros H. pose proof (hp_nodup _ _ _ H) as ND. clear H. revert ND.
  induction us; cbn; intros ND; [constructor|]. inversion ND; subst. constructor; auto.
  rewrite in_app_iff in *. tauto.
Qed.
Lemma heap_ext s s' us fl :
  s_bump s' = s_bump s -> s_free_len s' = s_free_len s -> s_free_head s' = s_free_head s ->
  zlen (s_nodes s') = zlen (s_nodes s) ->
  (forall h, In h fl -> znth (s_nodes s') h = znth (s_nodes s) h) ->
  heap s us fl -> heap s' us fl.
Proof.
  intros E1 E2 E3 E4 E5 H. destruct H. constructor; rewrite ?E1, ?E2, ?E3, ?E4; auto.
  eapply chain_ext; eauto.
Qed.
Lemma heap_set s us fl h n : heap s us fl -> ~ In h fl -> heap (slab_set s h n) us fl.
Proof.
  intros H Hn. eapply heap_ext; [..|eassumption]; try reflexivity.
  - cbn. apply zupd_len.
  - intros x Hx. cbn. apply znth_zupd_other. congruence.
Qed.

Lemma heap_alloc s us fl n : heap s us fl -> live n ->
  (slab_insert s n = Ok None /\ zlen us = slab_cap s) \/
  (exists s' h fl', slab_insert s n = Ok (Some (s', h)) /\ heap s' (h :: us) fl' /\ ~ In h us /\
     s_nodes s' = zupd (s_nodes s) h n /\ 0 <= h < zlen (s_nodes s) /\
     s_root s' = s_root s /\ s_leafs s' = s_leafs s /\ zlen us < slab_cap s).
Proof.
  intros H L.
  assert (Hi : slab_insert s n = slab_insert s (match n with NInner a b c d => NInner a b c d | x => x end))
    by (destruct n; reflexivity).
  pose proof (heap_count _ _ _ H) as Hc. pose proof (zlen_nonneg us). pose proof (zlen_nonneg fl).
  pose proof H as H'. destruct H' as [Hb Hu Hl Hch Hnd Hcv].
  assert (Hn : slab_insert s n =
      if s_free_len s =? 0 then
        if s_bump s =? zlen (s_nodes s) then Ok None
        else if s_bump s =? 4294967295 then Ok None
        else
          let key := s_bump s mod 4294967296 in
          match znth (s_nodes s) key with
          | None => Panic
          | Some _ =>
            Ok (Some (mkSlab (w64 (s_bump s + 1)) (s_free_len s) (s_free_head s) (s_root s)
                             (s_leafs s) (zupd (s_nodes s) key n), key))
          end
      else
        let key := s_free_head s in
        let take next := Ok (Some (mkSlab (s_bump s) (w64 (s_free_len s - 1)) next (s_root s)
                                          (s_leafs s) (zupd (s_nodes s) key n), key)) in
        match znth (s_nodes s) key with
        | Some (NFree next) => if 1 <? s_free_len s then take next else Panic
        | Some (NLastFree next) => if s_free_len s =? 1 then take next else Panic
        | _ => Panic
        end) by (destruct n; try destruct L; reflexivity).
  rewrite Hn. clear Hn Hi. cbv zeta.
  destruct (s_free_len s =? 0) eqn:E0.
  - assert (fl = []) as -> by (destruct fl; [reflexivity|rewrite zlen_cons in *; pose proof (zlen_nonneg fl); lia]).
    rewrite zlen_nil in *.
    destruct (s_bump s =? zlen (s_nodes s)) eqn:E1; [left; split; [reflexivity|unfold slab_cap; lia]|].
    destruct (s_bump s =? 4294967295) eqn:E2; [left; split; [reflexivity|unfold slab_cap; lia]|].
    right. rewrite Z.mod_small by lia.
    destruct (znth_lt (s_nodes s) (s_bump s) ltac:(lia)) as [x Ex]. rewrite Ex.
    eexists _, (s_bump s), []. split; [reflexivity|]. split; [|split; [|cbn; unfold slab_cap; repeat split; try reflexivity; lia]].
    + constructor; cbn [s_bump s_free_len s_free_head s_nodes]; rewrite ?zupd_len, ?w64_small by lia.
      * lia.
      * lia.
      * assumption.
      * exact I.
      * rewrite app_nil_r in *. constructor; [|assumption]. rewrite Hcv. lia.
      * intros h. rewrite app_nil_r in *. cbn [In]. rewrite Hcv. lia.
    + rewrite app_nil_r in Hcv. rewrite Hcv. lia.
  - destruct fl as [|h r]; [rewrite zlen_nil in *; lia|].
    cbn [chain] in Hch. destruct Hch as [Eh (next & En & Hch)]. rewrite Eh, En. rewrite zlen_cons in *.
    pose proof (zlen_nonneg r).
    assert (Hbnd : 0 <= h < s_bump s) by (apply Hcv; rewrite in_app_iff; cbn; auto).
    assert (Hnr : ~ In h r).
    { apply NoDup_remove_2 in Hnd. intros F. apply Hnd. rewrite in_app_iff. auto. }
    right. exists (mkSlab (s_bump s) (w64 (s_free_len s - 1)) next (s_root s) (s_leafs s) (zupd (s_nodes s) h n)), h, r.
    split; [|split; [|split; [|cbn; unfold slab_cap; repeat split; try reflexivity; lia]]].
    + destruct r.
      * rewrite zlen_nil in *. replace (s_free_len s =? 1) with true by lia. reflexivity.
      * rewrite zlen_cons in *. pose proof (zlen_nonneg r). replace (1 <? s_free_len s) with true by lia. reflexivity.
    + constructor; cbn [s_bump s_free_len s_free_head s_nodes]; rewrite ?zupd_len, ?w64_small by lia.
      * lia.
      * lia.
      * lia.
      * eapply chain_ext; [|eassumption]. intros x Hx. apply znth_zupd_other. congruence.
      * cbn. apply NoDup_Add with (a := h) (l := us ++ r); [apply Add_head|].
        split; [eapply NoDup_remove_1|eapply NoDup_remove_2]; eassumption.
      * intros x. rewrite <- Hcv, !in_app_iff. cbn. rewrite ?in_app_iff. tauto.
    + intros F. apply NoDup_remove_2 in Hnd. apply Hnd. rewrite in_app_iff. auto.
Qed.

Lemma heap_free s us us' fl h v : heap s us fl -> Permutation us (h :: us') ->
  slab_get s h = Some v ->
  exists s' f, slab_remove s h = Some (s', v) /\ heap s' us' (h :: fl) /\
    s_nodes s' = zupd (s_nodes s) h f /\ s_root s' = s_root s /\ s_leafs s' = s_leafs s.
Proof.
  intros H P G. apply (heap_perm _ _ _ _ P) in H. unfold slab_remove. rewrite G.
  pose proof (heap_count _ _ _ H) as Hc. rewrite zlen_cons in Hc.
  pose proof (zlen_nonneg us'). pose proof (zlen_nonneg fl).
  destruct H as [Hb Hu Hl Hch Hnd Hcv].
  eexists _, _. split; [reflexivity|]. cbn [s_nodes s_root s_leafs].
  split; [|auto].
  apply slab_get_inv in G. destruct G as [G Lv]. pose proof (znth_Some _ _ _ G) as Hbd.
  assert (Hnf : ~ In h fl).
  { inversion Hnd; subst. rewrite in_app_iff in *. tauto. }
  constructor; cbn [s_bump s_free_len s_free_head s_nodes]; rewrite ?zupd_len, ?w64_small by lia.
  - assumption.
  - assumption.
  - rewrite zlen_cons. lia.
  - cbn [chain]. split; [reflexivity|]. exists (s_free_head s). split.
    + rewrite znth_zupd_same by assumption. destruct fl.
      * rewrite zlen_nil in Hl. rewrite Hl. reflexivity.
      * rewrite zlen_cons in Hl. pose proof (zlen_nonneg fl). replace (s_free_len s =? 0) with false by lia. reflexivity.
    + eapply chain_ext; [|eassumption]. intros x Hx. apply znth_zupd_other. congruence.
  - eapply Permutation_NoDup; [|exact Hnd]. cbn. apply Permutation_middle.
  - intros x. rewrite <- Hcv, !in_app_iff. cbn. rewrite ?in_app_iff. tauto.
Qed.

(** * Whole slabs *)
Definition ohandles (o : option tree) := match o with Some t => handles t | None => [] end.
Definition oleaves (o : option tree) := match o with Some t => leaves t | None => [] end.

Record slab_rep (s : slab) (ot : option tree) (fl : list Z) : Prop := {
  sr_heap : heap s (ohandles ot) fl;
  sr_leafs : s_leafs s = zlen (oleaves ot);
  sr_tree : match ot with
            | None => True
            | Some t => s_root s = th t /\ repr (s_nodes s) t /\ wft (-1) t
            end
}.
Definition slab_ok (s : slab) : Prop := exists ot fl, slab_rep s ot fl.

(** The contents of a slab, in key order: an in-order walk. *)
Fixpoint inorder (fuel : nat) (s : slab) (h : Z) : list leaf :=
  match fuel with
  | O => []
  | S f => match slab_get s h with
           | Some (NInner _ _ a b) => inorder f s a ++ inorder f s b
           | Some (NLeaf l) => [l]
           | _ => []
           end
  end.
Definition book (s : slab) : list leaf :=
  match slab_root s with None => [] | Some r => inorder depth_fuel s r end.

Lemma inorder_repr s t fuel : repr (s_nodes s) t -> (height t <= fuel)%nat -> inorder fuel s (th t) = leaves t.
Proof.
  revert fuel. induction t as [h l|h p k a IHa b IHb]; intros fuel R Hf.
  - destruct fuel; cbn [height] in Hf; [lia|]. cbn [inorder]. rewrite (repr_get _ _ R). reflexivity.
  - destruct fuel; cbn [height] in Hf; [lia|]. cbn [inorder]. rewrite (repr_get _ _ R). cbn [contents].
    cbn [repr] in R. destruct R as (_ & Ra & Rb). rewrite IHa, IHb by (auto; lia). reflexivity.
Qed.

Lemma height_fuel t : wft (-1) t -> (height t <= depth_fuel)%nat.
Proof. intros W. apply wft_height in W; [|lia]. unfold depth_fuel. lia. Qed.

Lemma leaves_len_pos t : 1 <= zlen (leaves t).
Proof.
  induction t; cbn [leaves].
  - rewrite zlen_cons, zlen_nil. lia.
  - rewrite zlen_app. lia.
Qed.
Lemma handles_len t : zlen (handles t) = 2 * zlen (leaves t) - 1.
Proof.
  induction t; cbn [leaves handles].
  - reflexivity.
  - rewrite zlen_cons, (zlen_app (handles _)), (zlen_app (leaves _)). lia.
Qed.

Lemma slab_root_rep s ot fl : slab_rep s ot fl ->
  slab_root s = match ot with None => None | Some t => Some (th t) end.
Proof.
  intros H. destruct H as [_ Hl Ht]. unfold slab_root. rewrite Hl.
  destruct ot as [t|]; cbn [oleaves].
  - pose proof (leaves_len_pos t). destruct Ht as [-> _].
    replace (zlen (leaves t) =? 0) with false by lia. reflexivity.
  - reflexivity.
Qed.
Lemma book_rep s ot fl : slab_rep s ot fl -> book s = oleaves ot.
Proof.
  intros H. unfold book. rewrite (slab_root_rep _ _ _ H).
  destruct ot as [t|]; [|reflexivity]. destruct H as [_ _ (_ & R & W)].
  apply inorder_repr; [assumption|apply height_fuel; assumption].
Qed.
Lemma rep_sorted s ot fl : slab_rep s ot fl -> sorted (oleaves ot).
Proof.
  intros [_ _ H]. destruct ot as [t|]; cbn; [|constructor].
  destruct H as (_ & _ & W). apply (leaves_sorted (-1)); [lia|assumption].
Qed.

Lemma slab_new_ok n : slab_ok (slab_new n) /\ book (slab_new n) = [].
Proof.
  assert (R : slab_rep (slab_new n) None []).
  { constructor; [|reflexivity|exact I].
    constructor; cbn [slab_new s_bump s_free_len s_free_head s_nodes ohandles app chain].
    - pose proof (zlen_nonneg (repeat NUninit n)). lia.
    - lia.
    - reflexivity.
    - exact I.
    - constructor.
    - intros h. cbn. lia. }
  split; [exists None, []; assumption|]. rewrite (book_rep _ _ _ R). reflexivity.
Qed.

Lemma book_sorted s : slab_ok s -> sorted (book s).
Proof. intros (ot & fl & R). rewrite (book_rep _ _ _ R). eapply rep_sorted; eauto. Qed.
Lemma book_u128 s : slab_ok s -> forall x, In x (book s) -> u128 (l_key x).
Proof.
  intros (ot & fl & R). rewrite (book_rep _ _ _ R). destruct R as [_ _ T]. destruct ot; cbn; [|tauto].
  destruct T as (_ & _ & W). eapply wft_u128; eauto.
Qed.
Lemma book_leafs s : slab_ok s -> s_leafs s = zlen (book s).
Proof. intros (ot & fl & R). rewrite (book_rep _ _ _ R). apply R. Qed.
(** [n] orders occupy exactly [2n-1] nodes (0 when empty). *)
Definition nodes_for (n : Z) : Z := if n =? 0 then 0 else 2 * n - 1.
Lemma book_used s : slab_ok s -> nodes_for (zlen (book s)) = s_bump s - s_free_len s.
Proof.
  intros (ot & fl & R). rewrite (book_rep _ _ _ R). destruct R as [H _ _].
  pose proof (heap_count _ _ _ H). rewrite (hp_len _ _ _ H). unfold nodes_for.
  destruct ot as [t|]; cbn [oleaves ohandles] in *.
  - rewrite handles_len in H0. pose proof (leaves_len_pos t).
    replace (zlen (leaves t) =? 0) with false by lia. lia.
  - rewrite !zlen_nil in *. cbn. lia.
Qed.
Lemma book_cap s : slab_ok s -> nodes_for (zlen (book s)) <= slab_cap s.
Proof.
  intros H. rewrite (book_used _ H). destruct H as (ot & fl & [H _ _]).
  destruct H. pose proof (zlen_nonneg fl). unfold slab_cap. lia.
Qed.

(** * Insertion *)
Definition split_at (s : slab) (new : leaf) (root : Z) (contents : node) (root_key : Z) : res (slab * insert_out) :=
        let shared := leading_zeros (Z.lxor root_key (l_key new)) in
        let new_bit := negb (Z.land (crit_mask shared) (l_key new) =? 0) in
        o1 <- slab_insert s (NLeaf new) ;;
        match o1 with
        | None => Ok (s, OutOfSpace)
        | Some (s1, new_h) =>
            o2 <- slab_insert s1 contents ;;
            match o2 with
            | None =>
                '(s2, _) <- unwrap (slab_remove s1 new_h) ;;
                Ok (s2, OutOfSpace)
            | Some (s2, moved_h) =>
                _ <- unwrap (slab_get s2 root) ;;
                let inner :=
                  if new_bit then NInner shared (l_key new) moved_h new_h
                  else NInner shared (l_key new) new_h moved_h in
                let s3 := slab_set s2 root inner in
                Ok (set_root_leafs s3 (s_root s3) (w64 (s_leafs s3 + 1)), Inserted new_h None)
            end
        end.

Definition split_node (new : leaf) (rk hl hm : Z) : node :=
  let sh := lzx rk (l_key new) in
  if kbit sh (l_key new) then NInner sh (l_key new) hm hl else NInner sh (l_key new) hl hm.

(** Finding where the insertion happens. *)
Lemma insert_loop_find s new t : forall lo fuel, -1 <= lo -> wft lo t -> repr (s_nodes s) t ->
  u128 (l_key new) -> near lo t (l_key new) -> NoDup (handles t) -> (height t <= fuel)%nat ->
  match t_find t (l_key new) with
  | Some old => exists h, insert_loop fuel s new (th t) = Ok (slab_set s h (NLeaf new), Inserted h (Some old)) /\
      In h (handles t) /\
      forall hl hm, handles (t_ins t new hl hm) = handles t /\
        forall ns', znth ns' h = Some (NLeaf new) ->
        (forall x, In x (handles t) -> x <> h -> znth ns' x = znth (s_nodes s) x) ->
        repr ns' (t_ins t new hl hm)
  | None => exists root c rk, insert_loop fuel s new (th t) = split_at s new root c rk /\
      In root (handles t) /\ slab_get s root = Some c /\ node_key c = Some rk /\ u128 rk /\
      0 <= lzx rk (l_key new) < 128 /\
      forall hl hm, Permutation (handles (t_ins t new hl hm)) (hl :: hm :: handles t) /\
        forall ns', znth ns' root = Some (split_node new rk hl hm) ->
        znth ns' hl = Some (NLeaf new) -> znth ns' hm = Some c ->
        (forall x, In x (handles t) -> x <> root -> znth ns' x = znth (s_nodes s) x) ->
        repr ns' (t_ins t new hl hm)
  end.
Proof.
  assert (Hsplit : forall t, repr (s_nodes s) t -> NoDup (handles t) -> forall rk hl hm,
    Permutation (handles (mk_split (th t) new hl hm (lzx rk (l_key new)) t)) (hl :: hm :: handles t) /\
    forall ns', znth ns' (th t) = Some (split_node new rk hl hm) ->
        znth ns' hl = Some (NLeaf new) -> znth ns' hm = Some (contents t) ->
        (forall x, In x (handles t) -> x <> th t -> znth ns' x = znth (s_nodes s) x) ->
        repr ns' (mk_split (th t) new hl hm (lzx rk (l_key new)) t)).
  { clear t. intros t R ND rk hl hm.
    assert (RH : forall ns', znth ns' hm = Some (contents t) ->
        (forall x, In x (handles t) -> x <> th t -> znth ns' x = znth (s_nodes s) x) ->
        repr ns' (rehandle t hm)).
    { intros ns' Hm Hx. destruct t as [h l|h p k a b]; cbn [rehandle repr th contents] in *; [auto|].
      cbn [handles] in *. inversion ND as [|? ? N1 N2]; subst. destruct R as (_ & Ra & Rb).
      split; [assumption|]. split.
      - eapply repr_ext; [|exact Ra]. intros x Hin. apply Hx; [right; apply in_or_app; auto|].
        intros ->. apply N1. apply in_or_app; auto.
      - eapply repr_ext; [|exact Rb]. intros x Hin. apply Hx; [right; apply in_or_app; auto|].
        intros ->. apply N1. apply in_or_app; auto. }
    unfold mk_split, split_node. destruct (kbit (lzx rk (l_key new)) (l_key new)).
    - split.
      + destruct t as [h l|h p k a b]; cbn [rehandle handles th app].
        * etransitivity; [apply perm_swap|]. apply (Permutation_trans (l' := hm :: hl :: h :: [])).
          { apply perm_skip, perm_swap. } apply perm_swap.
        * rewrite <- !app_assoc.
          apply (Permutation_trans (l' := h :: hm :: hl :: handles a ++ handles b)).
          { apply perm_skip. apply perm_skip. rewrite app_assoc. apply Permutation_sym, Permutation_cons_append. }
          etransitivity; [apply perm_swap|].
          apply (Permutation_trans (l' := hm :: hl :: h :: handles a ++ handles b)).
          { apply perm_skip, perm_swap. } apply perm_swap.
      + intros ns' H1 H2 H3 H4. cbn [repr th contents]. rewrite th_rehandle.
        split; [assumption|]. split; [auto|]. split; [assumption|exact I].
    - split.
      + destruct t as [h l|h p k a b]; cbn [rehandle handles th app].
        * etransitivity; [apply perm_swap|]. apply perm_skip, perm_swap.
        * etransitivity; [apply perm_swap|]. apply perm_skip, perm_swap.
      + intros ns' H1 H2 H3 H4. cbn [repr th contents]. rewrite th_rehandle.
        split; [assumption|]. split; [split; [assumption|exact I]|auto]. }
  induction t as [h l|h p k a IHa b IHb]; intros lo fuel Hlo W R U N ND Hf.
  - destruct fuel; cbn [height] in Hf; [lia|]. cbn [t_find]. cbn [insert_loop].
    pose proof (repr_get _ _ R) as G. rewrite G. cbn [contents unwrap rbind node_key].
    destruct (l_key l =? l_key new) eqn:E.
    + exists h. split; [reflexivity|]. split; [cbn; auto|]. intros hl hm. cbn [t_ins]. rewrite E.
      split; [reflexivity|]. intros ns' H1 _. cbn. auto.
    + exists h, (NLeaf l), (l_key l). destruct W as [W1 W2].
      split; [reflexivity|]. split; [cbn; auto|]. split; [exact G|]. split; [reflexivity|]. split; [assumption|].
      split.
      { pose proof (lzx_range _ _ W2 U). pose proof (lzx_eq (l_key l) (l_key new)). lia. }
      intros hl hm. cbn [t_ins]. rewrite E. apply (Hsplit (TL h l) R ND).
  - destruct fuel; cbn [height] in Hf; [lia|]. cbn [insert_loop].
    pose proof (repr_get _ _ R) as G. rewrite G. cbn [contents unwrap rbind node_key].
    pose proof W as W'. cbn [wft] in W'. destruct W' as (Hp&Hk&Ha&Hb&Wa&Wb).
    change (leading_zeros (Z.lxor k (l_key new))) with (lzx k (l_key new)).
    destruct (p <=? lzx k (l_key new)) eqn:E.
    + rewrite crit_bit_kbit by lia. cbn [t_find t_ins]. rewrite E.
      cbn [handles] in ND. inversion ND as [|? ? N1 N2]; subst.
      pose proof R as R'. cbn [repr] in R'. destruct R' as (RT & Ra & Rb).
      destruct (NoDup_app_inv _ _ N2) as (NDa & NDb & Hdis).
      destruct (kbit p (l_key new)) eqn:F; cbn [child].
      * pose proof (near_child_r _ _ _ _ _ _ _ Hlo W U ltac:(lia) F) as Nb.
        specialize (IHb p fuel ltac:(lia) Wb Rb U Nb NDb ltac:(lia)).
        destruct (t_find b (l_key new)) as [old|].
        -- destruct IHb as (h' & E1 & E2 & E3). exists h'. split; [assumption|].
           split; [cbn [handles]; right; apply in_or_app; auto|].
           intros hl hm. destruct (E3 hl hm) as [E4 E5]. cbn [handles]. rewrite E4. split; [reflexivity|].
           intros ns' H1 H2. cbn [repr th contents].
           assert (TH : th (t_ins b new hl hm) = th b).
           { destruct b; cbn [t_ins th]; repeat match goal with |- context[if ?c then _ else _] => destruct c end; unfold mk_split; repeat match goal with |- context[if ?c then _ else _] => destruct c end; reflexivity. }
           rewrite TH. split; [rewrite H2; [exact RT|cbn; auto|]|split].
           ++ intros ->. apply N1. apply in_or_app; auto.
           ++ eapply repr_ext; [|exact Ra]. intros x Hx. apply H2; [right; apply in_or_app; auto|].
              intros ->. eauto.
           ++ apply E5; [assumption|]. intros x Hx Hne. apply H2; [right; apply in_or_app; auto|assumption].
        -- destruct IHb as (root & c & rk & E1 & E2 & E3 & E4 & E5 & E6 & E7). exists root, c, rk.
           split; [assumption|]. split; [cbn [handles]; right; apply in_or_app; auto|].
           do 4 (split; [assumption|]). intros hl hm. destruct (E7 hl hm) as [E8 E9]. split.
           ++ cbn [handles]. rewrite E8.
              transitivity (h :: hl :: hm :: handles a ++ handles b).
              { apply perm_skip. rewrite <- Permutation_middle. apply perm_skip. rewrite <- Permutation_middle. reflexivity. }
              etransitivity; [apply perm_swap|]. apply perm_skip, perm_swap.
           ++ intros ns' H1 H2 H3 H4. cbn [repr th contents].
              assert (TH : th (t_ins b new hl hm) = th b).
              { destruct b; cbn [t_ins th]; repeat match goal with |- context[if ?c then _ else _] => destruct c end; unfold mk_split; repeat match goal with |- context[if ?c then _ else _] => destruct c end; reflexivity. }
              rewrite TH. split; [rewrite H4; [exact RT|cbn; auto|]|split].
              ** intros ->. apply N1. apply in_or_app; auto.
              ** eapply repr_ext; [|exact Ra]. intros x Hx. apply H4; [right; apply in_or_app; auto|].
                 intros ->. eauto.
              ** apply E9; try assumption. intros x Hx Hne. apply H4; [right; apply in_or_app; auto|assumption].
      * pose proof (near_child_l _ _ _ _ _ _ _ Hlo W U ltac:(lia) F) as Na.
        specialize (IHa p fuel ltac:(lia) Wa Ra U Na NDa ltac:(lia)).
        destruct (t_find a (l_key new)) as [old|].
        -- destruct IHa as (h' & E1 & E2 & E3). exists h'. split; [assumption|].
           split; [cbn [handles]; right; apply in_or_app; auto|].
           intros hl hm. destruct (E3 hl hm) as [E4 E5]. cbn [handles]. rewrite E4. split; [reflexivity|].
           intros ns' H1 H2. cbn [repr th contents].
           assert (TH : th (t_ins a new hl hm) = th a).
           { destruct a; cbn [t_ins th]; repeat match goal with |- context[if ?c then _ else _] => destruct c end; unfold mk_split; repeat match goal with |- context[if ?c then _ else _] => destruct c end; reflexivity. }
           rewrite TH. split; [rewrite H2; [exact RT|cbn; auto|]|split].
           ++ intros ->. apply N1. apply in_or_app; auto.
           ++ apply E5; [assumption|]. intros x Hx Hne. apply H2; [right; apply in_or_app; auto|assumption].
           ++ eapply repr_ext; [|exact Rb]. intros x Hx. apply H2; [right; apply in_or_app; auto|].
              intros ->. eauto.
        -- destruct IHa as (root & c & rk & E1 & E2 & E3 & E4 & E5 & E6 & E7). exists root, c, rk.
           split; [assumption|]. split; [cbn [handles]; right; apply in_or_app; auto|].
           do 4 (split; [assumption|]). intros hl hm. destruct (E7 hl hm) as [E8 E9]. split.
           ++ cbn [handles]. rewrite E8. cbn [app].
              etransitivity; [apply perm_swap|]. apply perm_skip, perm_swap.
           ++ intros ns' H1 H2 H3 H4. cbn [repr th contents].
              assert (TH : th (t_ins a new hl hm) = th a).
              { destruct a; cbn [t_ins th]; repeat match goal with |- context[if ?c then _ else _] => destruct c end; unfold mk_split; repeat match goal with |- context[if ?c then _ else _] => destruct c end; reflexivity. }
              rewrite TH. split; [rewrite H4; [exact RT|cbn; auto|]|split].
              ** intros ->. apply N1. apply in_or_app; auto.
              ** apply E9; try assumption. intros x Hx Hne. apply H4; [right; apply in_or_app; auto|assumption].
              ** eapply repr_ext; [|exact Rb]. intros x Hx. apply H4; [right; apply in_or_app; auto|].
                 intros ->. eauto.
    + assert (Hlt : lzx k (l_key new) < p) by lia.
      pose proof (opp_inner _ _ _ _ _ _ _ Hlo W U Hlt) as O.
      assert (FN : t_find (TN h p k a b) (l_key new) = None).
      { rewrite (t_find_lfind lo) by assumption. apply lfind_None. intros x Hx Ex.
        destruct (O x Hx) as [_ B]. rewrite Ex in B. destruct (kbit (lzx k (l_key new)) (l_key new)); discriminate. }
      rewrite FN. exists h, (NInner p k (th a) (th b)), k.
      split; [reflexivity|]. split; [cbn; auto|]. split; [exact G|]. split; [reflexivity|]. split; [assumption|].
      split; [pose proof (lzx_range _ _ Hk U); lia|].
      intros hl hm. cbn [t_ins]. rewrite E. apply (Hsplit (TN h p k a b) R ND).
Qed.

Lemma th_t_ins t new hl hm : th (t_ins t new hl hm) = th t.
Proof.
  destruct t; cbn [t_ins th]; repeat match goal with |- context[if ?c then _ else _] => destruct c end;
    unfold mk_split; repeat match goal with |- context[if ?c then _ else _] => destruct c end; reflexivity.
Qed.

Definition same_cap (s s' : slab) : Prop := zlen (s_nodes s') = zlen (s_nodes s).

Lemma lins_len_new x l : sorted l -> lfind (l_key x) l = None -> zlen (lins x l) = zlen l + 1.
Proof.
  intros S. induction S as [|z l S IH F]; intros N; cbn [lins]; [reflexivity|].
  rewrite lfind_None in N. pose proof (N z (or_introl eq_refl)).
  destruct (l_key x <? l_key z) eqn:E1; [rewrite !zlen_cons; lia|].
  replace (l_key x =? l_key z) with false by lia. rewrite !zlen_cons, IH; [lia|].
  apply lfind_None. intros y Hy. apply N. cbn; auto.
Qed.
Lemma lins_len_old x l o : sorted l -> lfind (l_key x) l = Some o -> zlen (lins x l) = zlen l.
Proof.
  intros S. induction S as [|z l S IH F]; intros N; [discriminate|]. cbn [lins].
  apply lfind_Some in N as N'. destruct N' as [N1 N2]. rewrite Forall_forall in F.
  destruct N1 as [->|N1].
  - rewrite N2, Z.ltb_irrefl, Z.eqb_refl. rewrite !zlen_cons. reflexivity.
  - specialize (F _ N1). unfold klt in F.
    replace (l_key x <? l_key z) with false by lia. replace (l_key x =? l_key z) with false by lia.
    rewrite !zlen_cons, IH; [reflexivity|]. apply lfind_In; auto.
Qed.

Theorem insert_leaf_spec s new : slab_ok s -> u128 (l_key new) ->
  exists s' out, insert_leaf s new = Ok (s', out) /\ slab_ok s' /\ same_cap s s' /\
  match out with
  | Inserted h old => book s' = lins new (book s) /\ old = lfind (l_key new) (book s) /\
                      slab_get s' h = Some (NLeaf new) /\ 0 <= h < s_bump s' /\
                      (old = None -> nodes_for (zlen (book s) + 1) <= slab_cap s)
  | OutOfSpace => book s' = book s /\ lfind (l_key new) (book s) = None /\
                  slab_cap s < nodes_for (zlen (book s) + 1)
  end.
Proof.
  intros (ot & fl & R) U. unfold insert_leaf. rewrite (slab_root_rep _ _ _ R), (book_rep _ _ _ R).
  destruct ot as [t|].
  - cbn [oleaves]. pose proof R as R'. destruct R' as [H Hl (Hr & Rp & W)]. cbn [ohandles oleaves] in *.
    assert (N : near (-1) t (l_key new)).
    { intros x Hx. apply agree_0; [|assumption]. eapply wft_u128; eauto. }
    pose proof (heap_nodup_us _ _ _ H) as ND.
    pose proof (insert_loop_find s new t (-1) depth_fuel ltac:(lia) W Rp U N ND (height_fuel _ W)) as F.
    pose proof (leaves_sorted (-1) t ltac:(lia) W) as SL.
    rewrite (t_find_lfind (-1)) in F by (auto; lia).
    destruct (lfind (l_key new) (leaves t)) as [old|] eqn:EF.
    + destruct F as (h & E1 & E2 & E3). eexists _, _. split; [exact E1|].
      destruct (E3 0 0) as [E4 E5].
      destruct (t_ins_spec (-1) t new 0 0 ltac:(lia) W U N) as [L1 L2].
      assert (Hb : 0 <= h < zlen (s_nodes s)) by (eapply repr_bound; eauto).
      assert (RS : slab_rep (slab_set s h (NLeaf new)) (Some (t_ins t new 0 0)) fl).
      { constructor; cbn [ohandles oleaves].
        - rewrite E4. apply heap_set; [assumption|]. eapply heap_disj; eauto.
        - cbn [slab_set s_leafs]. rewrite L1, (lins_len_old _ _ _ SL EF). assumption.
        - rewrite th_t_ins. split; [assumption|]. split; [|assumption]. apply E5; cbn [slab_set s_nodes].
          + apply znth_zupd_same; assumption.
          + intros x Hx Hne. apply znth_zupd_other. congruence. }
      split; [eexists _, _; exact RS|]. split; [unfold same_cap; cbn; apply zupd_len|].
      rewrite (book_rep _ _ _ RS). cbn [oleaves]. split; [assumption|]. split; [reflexivity|].
      split; [|split; [|discriminate]].
      * apply get_live; [|exact I]. cbn. apply znth_zupd_same; assumption.
      * cbn. apply (hp_cover _ _ _ H). apply in_or_app. auto.
    + destruct F as (root & c & rk & E1 & E2 & E3 & E4 & E5 & E6 & E7). rewrite E1. unfold split_at.
      pose proof (repr_bound _ _ _ Rp E2) as Hrb.
      pose proof (handles_len t) as HL. pose proof (leaves_len_pos t) as LP.
      change (leading_zeros (Z.lxor rk (l_key new))) with (lzx rk (l_key new)).
      rewrite crit_bit_kbit' by assumption.
      assert (NF : nodes_for (zlen (leaves t) + 1) = zlen (handles t) + 2).
      { unfold nodes_for. replace (zlen (leaves t) + 1 =? 0) with false by lia. lia. }
      destruct (heap_alloc s (handles t) fl (NLeaf new) H I) as [[A1 A2]|(s1 & hl & fl1 & A1 & A2 & A3 & A4 & A5 & A6 & A7 & A8)].
      * rewrite A1. cbn [rbind]. eexists _, _. split; [reflexivity|].
        split; [eexists _, _; eassumption|]. split; [reflexivity|]. rewrite (book_rep _ _ _ R). cbn [oleaves].
        split; [reflexivity|]. split; [reflexivity|]. lia.
      * rewrite A1. cbn [rbind]. apply slab_get_inv in E3 as E3'. destruct E3' as [E3z E3l].
        assert (Hlr : hl <> root) by (intros ->; contradiction).
        destruct (heap_alloc s1 (hl :: handles t) fl1 c A2 E3l) as [[B1 B2]|(s2 & hm & fl2 & B1 & B2 & B3 & B4 & B5 & B6 & B7 & B8)].
        -- rewrite B1. cbn [rbind].
           assert (G1 : slab_get s1 hl = Some (NLeaf new)).
           { apply get_live; [|exact I]. rewrite A4. apply znth_zupd_same; assumption. }
           destruct (heap_free s1 (hl :: handles t) (handles t) fl1 hl _ A2 (Permutation_refl _) G1) as (s2 & f & C1 & C2 & C3 & C4 & C5).
           rewrite C1. cbn [unwrap rbind]. eexists _, _. split; [reflexivity|].
           assert (RS : slab_rep s2 (Some t) (hl :: fl1)).
           { constructor; cbn [ohandles oleaves]; [assumption|congruence|].
             split; [congruence|]. split; [|assumption]. eapply repr_ext; [|exact Rp].
             intros x Hx. rewrite C3, A4. rewrite !znth_zupd_other by (intros ->; contradiction). reflexivity. }
           split; [eexists _, _; exact RS|]. split; [unfold same_cap; rewrite C3, A4, !zupd_len; reflexivity|].
           rewrite (book_rep _ _ _ RS). cbn [oleaves]. split; [reflexivity|]. split; [reflexivity|].
           rewrite zlen_cons in B2. unfold slab_cap in *. rewrite A4, zupd_len in B2. lia.
        -- rewrite B1. cbn [rbind].
           assert (Hmr : hm <> root) by (intros ->; apply B3; cbn; auto).
           assert (Hml : hm <> hl) by (intros ->; apply B3; cbn; auto).
           assert (G2 : slab_get s2 root = Some c).
           { apply get_live; [|assumption]. rewrite B4, A4. rewrite !znth_zupd_other by congruence. assumption. }
           rewrite G2. cbn [unwrap rbind].
           eexists _, _. split; [reflexivity|].
           destruct (E7 hl hm) as [E8 E9].
           destruct (t_ins_spec (-1) t new hl hm ltac:(lia) W U N) as [L1 L2].
           assert (LEN : zlen (s_nodes s2) = zlen (s_nodes s)) by (rewrite B4, A4, !zupd_len; reflexivity).
           assert (LEN1 : zlen (s_nodes s1) = zlen (s_nodes s)) by (rewrite A4, !zupd_len; reflexivity).
           fold (split_node new rk hl hm).
           set (s3 := set_root_leafs _ _ _).
           assert (RS : slab_rep s3 (Some (t_ins t new hl hm)) fl2).
           { constructor; cbn [ohandles oleaves].
             - apply (heap_perm _ (hm :: hl :: handles t)).
               { rewrite E8. apply perm_swap. }
               eapply heap_ext with (s := slab_set s2 root (split_node new rk hl hm)); try reflexivity.
               apply heap_set; [assumption|]. eapply heap_disj; [eassumption|]. cbn; auto.
             - unfold s3. cbn [set_root_leafs slab_set s_leafs]. rewrite L1, (lins_len_new _ _ SL EF).
               rewrite B7, A7, Hl. rewrite w64_small; [reflexivity|].
               pose proof (heap_count _ _ _ H). pose proof (hp_u32 _ _ _ H). pose proof (zlen_nonneg fl). lia.
             - rewrite th_t_ins. split; [cbn; congruence|]. split; [|assumption].
               apply E9; cbn [s3 set_root_leafs slab_set s_nodes].
               + apply znth_zupd_same. rewrite LEN. assumption.
               + rewrite znth_zupd_other by congruence. rewrite B4, znth_zupd_other by congruence.
                 rewrite A4. apply znth_zupd_same. assumption.
               + rewrite znth_zupd_other by congruence. rewrite B4. apply znth_zupd_same. assumption.
               + intros x Hx Hne. rewrite znth_zupd_other by congruence. rewrite B4.
                 rewrite znth_zupd_other by (intros ->; apply B3; cbn; auto). rewrite A4.
                 apply znth_zupd_other. intros ->; contradiction. }
           split; [eexists _, _; exact RS|].
           split; [unfold same_cap, s3; cbn; rewrite zupd_len; assumption|].
           rewrite (book_rep _ _ _ RS). cbn [oleaves]. split; [assumption|]. split; [reflexivity|].
           split; [|split].
           ++ apply get_live; [|exact I]. unfold s3. cbn. rewrite znth_zupd_other by congruence.
              rewrite B4, znth_zupd_other by congruence. rewrite A4. apply znth_zupd_same. assumption.
           ++ apply (hp_cover _ _ _ (sr_heap _ _ _ RS)). apply in_or_app. left. cbn [ohandles].
              eapply Permutation_in; [apply Permutation_sym, E8|]. cbn; auto.
           ++ intros _. rewrite zlen_cons in B8. unfold slab_cap in *. rewrite LEN1 in B8. lia.
  - cbn [oleaves]. pose proof R as R'. destruct R' as [H Hl _]. cbn [ohandles oleaves] in *.
    destruct (heap_alloc s [] fl (NLeaf new) H I) as [[A1 A2]|(s1 & hl & fl1 & A1 & A2 & A3 & A4 & A5 & A6 & A7 & A8)].
    + rewrite A1. cbn [rbind]. eexists _, _. split; [reflexivity|].
      split; [eexists _, _; eassumption|]. split; [reflexivity|]. rewrite (book_rep _ _ _ R). cbn [oleaves].
      split; [reflexivity|]. split; [reflexivity|]. change (zlen (@nil Z)) with 0 in A2. change (nodes_for _) with 1. lia.
    + rewrite A1. cbn [rbind]. eexists _, _. split; [reflexivity|].
      assert (RS : slab_rep (set_root_leafs s1 hl 1) (Some (TL hl new)) fl1).
      { constructor; cbn [ohandles oleaves handles leaves].
        - eapply heap_ext with (s := s1); try reflexivity. assumption.
        - reflexivity.
        - cbn. split; [reflexivity|]. split; [split; [|exact I]|split; [lia|assumption]].
          rewrite A4. apply znth_zupd_same. assumption. }
      split; [eexists _, _; exact RS|].
      split; [unfold same_cap; cbn; rewrite A4; apply zupd_len|].
      rewrite (book_rep _ _ _ RS). cbn [oleaves leaves]. split; [reflexivity|]. split; [reflexivity|].
      split; [|split].
      * apply get_live; [|exact I]. cbn. rewrite A4. apply znth_zupd_same. assumption.
      * apply (hp_cover _ _ _ (sr_heap _ _ _ RS)). cbn; auto.
      * intros _. change (zlen (@nil Z)) with 0 in A8. change (nodes_for _) with 1. lia.
Qed.
