(** When the loaders succeed. *)
From Verif Require Import Base BaseProofs Fees ListSum Queue QueueProofs Codec CodecProofs Critbit CritbitProofs CritbitSlab Market Matching MatchSteps MatchRefine Slots Core CoreInv Instr Store Process StoreProofs World WorldInv WorldLoad WorldSpec.

Lemma flags_enabled f : check_market_flags f true = Ok tt -> Z.testbit f 7 = false -> check_market_flags f false = Ok tt.
Proof.
  unfold check_market_flags. intros H N. apply rbind_ok in H. destruct H as (? & K & H). rewrite K. cbn [rbind]. apply check_ok in H.
  assert (X : forall l, (forall y, In y l -> Z.testbit (Z.lor y AF_Disabled) 7 = true) -> existsb (Z.eqb f) (l ++ map (fun y => Z.lor y AF_Disabled) l) = true -> existsb (Z.eqb f) l = true).
  { intros l HL HX. apply existsb_exists in HX. destruct HX as (y & Hy & E). apply existsb_exists. apply in_app_or in Hy. destruct Hy as [Hy|Hy]; [exists y; auto|]. exfalso.
    apply in_map_iff in Hy. destruct Hy as (z & <- & Hz). specialize (HL z Hz). apply Z.eqb_eq in E. rewrite <- E in HL. congruence. }
  destruct (has_flag f AF_Permissioned); rewrite X; try reflexivity; try exact H; cbn [In]; intros y Hy; repeat destruct Hy as [<-|Hy]; try reflexivity; destruct Hy.
Qed.

Section Fwd.
Variable e : env.
Notation D := (dexd e).
Variables (s : store) (k : Z) (m : market).
Hypothesis (W : wstruct (D s)) (HM : D s k = Some (DMarket m)).
Lemma load_market_fwd b : check_market_flags (m_flags m) b = Ok tt -> load_market e s k b = Ok m.
Proof. intros F. unfold load_market. apply dexd_owned in HM. destruct HM as [HP HD]. rewrite HD, HP, Z.eqb_refl, F. reflexivity. Qed.
Lemma load_market_any : load_market e s k true = Ok m.
Proof. apply load_market_fwd. exact (ws_flags _ W _ _ HM). Qed.
Lemma load_live_fwd x oo u rent auth : live (D s) k x oo -> (forall w, u = Some w -> oo_owner oo = w) -> load_orders e s m x u rent auth = Ok oo.
Proof.
  intros (DX & F & MK) OW. apply dexd_owned in DX. destruct DX as [HP HD]. unfold load_orders. rewrite HP, Z.eqb_refl, HD. cbn [check rbind]. rewrite F.
  change (OO_FLAGS =? 0) with false. cbn [rbind]. unfold oo_check_flags. rewrite F. change (flags_known OO_FLAGS) with true. change (OO_FLAGS =? OO_FLAGS) with true. cbn [check rbind].
  rewrite (ws_own _ W _ _ HM), MK, Z.eqb_refl. cbn [check rbind]. destruct u as [w|]; [rewrite (OW w eq_refl), Z.eqb_refl|]; reflexivity.
Qed.
Lemma load_slab_fwd sd f x : D s f = Some (DSlab sd x) -> load_slab s sd f f = Ok x.
Proof. intros H. apply dexd_owned in H. destruct H as [_ H]. unfold load_slab. rewrite Z.eqb_refl, H. cbn [check rbind]. destruct sd; reflexivity. Qed.
Lemma load_evq_fwd q : D s (m_event_q m) = Some (DEventQ q) -> load_event_q s m (m_event_q m) = Ok q.
Proof. intros H. apply dexd_owned in H. destruct H as [_ H]. unfold load_event_q. rewrite Z.eqb_refl, H. reflexivity. Qed.
End Fwd.
