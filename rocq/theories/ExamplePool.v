(** A small pool, run. *)
From Verif Require Import Base BaseProofs Fees Core Instr InstrProofs Store Borsh PoolStore Pool AdminPool BorshProofs PoolFees PoolFacts PoolExec PoolWorld PoolInv PoolBack.

Definition pe : penv := mkPenv 7 (fun k n => if (0 <=? n) && (n <? 256) && (100 <=? k) then Some (k * 256 + n) else None) (fun _ _ => true) (fun _ => true) (fun _ d _ => Ok d).
Lemma pe_ok : penv_ok pe.
Proof.
  constructor; [discriminate|]. intros k n k' n' g. cbn [pe pe_pda]. destruct (_ && _) eqn:A; [|discriminate]. destruct ((0 <=? n') && (n' <? 256) && _) eqn:B; [|discriminate]. intros [= <-] [= E]. lia.
Qed.
(** The pool's account 100, its signer 25855 = address of (100, 255). *)
Definition sg : Z := 25855.
Definition ptok (mint owner amount : Z) : pacct := mkPacct spl_id 0 (PToken (mkToken mint owner amount None 0 1 None)).
Definition z0 : pstore :=
  [ (100, mkPacct 7 0 (PBytes (repeat 0 500))); (101, mkPacct spl_id 0 (PMint (mkMint (Some sg) 1000)));
    (102, ptok 50 sg 5000); (103, ptok 51 sg 777);
    (110, ptok 101 lqd_fee_owner 0); (111, ptok 101 60 0); (112, ptok 101 61 0);
    (120, ptok 101 70 1000); (121, ptok 50 70 100000); (122, ptok 51 70 100000); (104, ptok 52 sg 0) ].
Definition m_ (k : Z) : meta := mkMeta k false.
Definition m_s (k : Z) : meta := mkMeta k true.
Definition init_data : bytes := put_request (RInit (mkInitReq 255 2 [65; 66] 2500 [])).
Definition init_metas : list meta := map m_ [100; 101; 102; 103; sg; 110; 111; rent_id; 90].
Definition exec_metas : list meta := map m_ [100; 101; 102; 103; sg; 120; 121; 122] ++ [m_s 70] ++ map m_ [110; 111; 112; spl_id].
Definition run (P : impl) (s : pstore) (ms : list meta) (b : bytes) : pstore := match pool_entry pe P s ms b with Ok s' => s' | _ => s end.
Definition z1 := Eval vm_compute in run default_impl z0 init_metas init_data.
Definition create_data : bytes := put_request (RExecute (Create 333)).
Definition redeem_data : bytes := put_request (RExecute (Redeem 500)).
Definition z2 := Eval vm_compute in run default_impl z1 exec_metas create_data.
Definition z3 := Eval vm_compute in run default_impl z2 exec_metas redeem_data.

(** ** Checking the side conditions *)
Definition byteb (x : Z) : bool := (0 <=? x) && (x <? 256).
Definition keyb (k : Z) : bool := (0 <=? k) && (k <? B128 * B128).
Definition goodb (a : pacct) : bool :=
  match pa_data a with PBytes b => forallb byteb b | PToken t => keyb (t_mint t) && (0 <=? t_amount t) | PMint m => 0 <=? mi_supply m end.
Lemma pfind_in s k a : pfind s k = Some a -> In (k, a) s.
Proof. induction s as [|[k' a'] s IH]; cbn [pfind]; [discriminate|]. destruct (Z.eqb_spec k' k) as [->|]; [intros [= ->]; left; reflexivity|right; auto]. Qed.
Lemma good_get s k : forallb (fun p => goodb (snd p)) s = true -> goodb (pget s k) = true.
Proof. intros H. unfold pget. destruct (pfind s k) as [a|] eqn:F; [|reflexivity]. apply pfind_in in F. rewrite forallb_forall in H. exact (H _ F). Qed.
Lemma bytes_check b : forallb byteb b = true -> is_bytes b.
Proof. intros H. apply Forall_forall. rewrite forallb_forall in H. intros x X. specialize (H x X). unfold byteb in H. lia. Qed.
Lemma good_store s : forallb (fun p => goodb (snd p)) s = true -> store_ok pe s.
Proof.
  intros H. constructor; intros; pose proof (good_get s ltac:(assumption) H) as G; unfold goodb in G.
  - unfold bal, ptoken. destruct (_ =? _); [|lia]. destruct (pa_data (pget s k)); lia.
  - unfold supply, pmint. destruct (_ =? _); [|lia]. destruct (pa_data (pget s m)); lia.
  - match goal with T : ptoken _ _ = _ |- _ => apply ptoken_data in T; destruct T as [_ T]; rewrite T in G end. unfold keyb in G. unfold wf_key. lia.
  - match goal with T : pa_data _ = _ |- _ => rewrite T in G end. apply bytes_check. assumption.
Qed.
Lemma honest_check ms b : forallb byteb b && forallb (fun m => keyb (mk m) && (negb (mk_signer m) || (mk m <? 25600))) ms = true -> honest pe ms b.
Proof.
  intros H. apply andb_prop in H. destruct H as [H1 H2]. split; [apply bytes_check; assumption|]. apply Forall_forall. rewrite forallb_forall in H2. intros m M. specialize (H2 m M). unfold keyb in H2. split; [unfold wf_key; lia|].
  intros S (k & n & Q). cbn [pe pe_pda] in Q. destruct (_ && _) eqn:A in Q; [|discriminate]. injection Q as Q. lia.
Qed.
Lemma begin_z0 : begin pe z0.
Proof.
  split; [apply good_store; vm_compute; reflexivity|]. intros k Q. assert (K : k = 100).
  { unfold pget in Q. destruct (pfind z0 k) as [a|] eqn:F; [|discriminate]. apply pfind_in in F. unfold z0 in F. cbn [In] in F.
    repeat (destruct F as [F|F]; [first [congruence|injection F as <- <-; discriminate Q]|]). destruct F. }
  subst. exists 500%nat. reflexivity.
Qed.
Ltac tx := apply honest_check; vm_compute; reflexivity.
Lemma tx_step P s ms b s' : preach pe P s -> honest pe ms b -> pool_entry pe P s ms b = Ok s' -> preach pe P s'.
Proof. intros R H E. eapply Pr_step; [eassumption|]. eapply Step_tx; eassumption. Qed.
Lemma z1_run : pool_entry pe default_impl z0 init_metas init_data = Ok z1. Proof. vm_compute. reflexivity. Qed.
Lemma z2_run : pool_entry pe default_impl z1 exec_metas create_data = Ok z2. Proof. vm_compute. reflexivity. Qed.
Lemma z3_run : pool_entry pe default_impl z2 exec_metas redeem_data = Ok z3. Proof. vm_compute. reflexivity. Qed.
Lemma z1_reach : preach pe default_impl z1. Proof. eapply tx_step; [apply Pr_begin; exact begin_z0| |exact z1_run]. tx. Qed.
Lemma z2_reach : preach pe default_impl z2. Proof. eapply tx_step; [exact z1_reach| |exact z2_run]. tx. Qed.
Definition z_state : pstate := mkPstate 101 [mkAsset 50 102; mkAsset 51 103] sg 255 [] [65; 66] 110 111 2500 None [].
Lemma at_check s k st : match pa_data (pget s k) with PBytes b => forallb byteb b | _ => false end = true -> pa_prog (pget s k) = 7 ->
  match pa_data (pget s k) with PBytes b => option_map fst (get_state pe b) | _ => None end = Some st -> pool_at pe s k st.
Proof.
  intros B Q G. split; [exact Q|]. destruct (pa_data (pget s k)) as [b| |]; try discriminate. destruct (get_state pe b) as [[st' r]|] eqn:GS; [|discriminate]. injection G as ->.
  exists b, r. split; [reflexivity|]. split; [apply bytes_check; assumption|assumption].
Qed.
Lemma z1_pool : pool_at pe z1 100 z_state. Proof. apply at_check; vm_compute; reflexivity. Qed.
Lemma z1_held : all_held z1 z_state.
Proof. intros v [<-|[<-|[]]]; (eexists; split; [vm_compute; reflexivity|cbn; auto]). Qed.
Lemma z1_z3 : user_steps pe default_impl z_state z1 z3.
Proof.
  eapply Us_tx; [eapply Us_tx; [apply Us_nil| | |exact z2_run]| | |exact z3_run]; try tx; intros m M S; discriminate.
Qed.

(** The same vault twice. *)
Definition dup_metas : list meta := map m_ [100; 101; 102; 102; sg; 110; 111; rent_id; 90].
Definition dup_exec : list meta := map m_ [100; 101; 102; 102; sg; 120; 121; 121] ++ [m_s 70] ++ map m_ [110; 111; 112; spl_id].
Definition y1 := Eval vm_compute in run default_impl z0 dup_metas init_data.
Definition y2 := Eval vm_compute in run default_impl y1 dup_exec redeem_data.
Lemma y1_run : pool_entry pe default_impl z0 dup_metas init_data = Ok y1. Proof. vm_compute. reflexivity. Qed.
Lemma y2_run : pool_entry pe default_impl y1 dup_exec redeem_data = Ok y2. Proof. vm_compute. reflexivity. Qed.
Lemma y1_reach : preach pe default_impl y1. Proof. eapply tx_step; [apply Pr_begin; exact begin_z0| |exact y1_run]. tx. Qed.
Definition y_state : pstate := mkPstate 101 [mkAsset 50 102; mkAsset 50 102] sg 255 [] [65; 66] 110 111 2500 None [].
Lemma y1_pool : pool_at pe y1 100 y_state. Proof. apply at_check; vm_compute; reflexivity. Qed.

(** A vault that belongs to someone else and is only lent to the pool. *)
Definition x0 : pstore := pput z0 102 (mkPacct spl_id 0 (PToken (mkToken 50 80 5000 (Some sg) 5000 1 None))).
Definition Eval_x0 := Eval vm_compute in x0.
Lemma begin_x0 : begin pe x0.
Proof.
  split; [apply good_store; vm_compute; reflexivity|]. intros k Q. assert (K : k = 100).
  { unfold pget in Q. destruct (pfind x0 k) as [a|] eqn:F; [|discriminate]. apply pfind_in in F. change x0 with (Eval_x0) in F. unfold Eval_x0 in F. cbn [In] in F.
    repeat (destruct F as [F|F]; [first [congruence|injection F as <- <-; discriminate Q]|]). destruct F. }
  subst. exists 500%nat. reflexivity.
Qed.
Definition x1 := Eval vm_compute in run default_impl x0 init_metas init_data.
Lemma x1_run : pool_entry pe default_impl x0 init_metas init_data = Ok x1. Proof. vm_compute. reflexivity. Qed.

(** An administered pool. *)
Definition A : impl := admin_impl pe.
Definition admin_metas (l : list Z) : list meta := m_ 100 :: m_s 90 :: map m_ l.
Definition a1 := Eval vm_compute in run A z0 init_metas init_data.
Definition a2 := Eval vm_compute in run A a1 (admin_metas [104]) (put_admin AAddAsset).
Definition a3 := Eval vm_compute in run A a2 (admin_metas [104; 95; sg; spl_id]) (put_admin (AApprove 1000)).
Definition a4 := Eval vm_compute in run A a3 (admin_metas [104]) (put_admin ARemoveAsset).
Definition a5 := Eval vm_compute in run A a4 (admin_metas [102; 103]) (put_admin AUnpause).
Definition a6 := Eval vm_compute in run A a5 (admin_metas [104]) (put_admin AAddAsset).
Lemma a1_run : pool_entry pe A z0 init_metas init_data = Ok a1. Proof. vm_compute. reflexivity. Qed.
Lemma a2_run : pool_entry pe A a1 (admin_metas [104]) (put_admin AAddAsset) = Ok a2. Proof. vm_compute. reflexivity. Qed.
Lemma a3_run : pool_entry pe A a2 (admin_metas [104; 95; sg; spl_id]) (put_admin (AApprove 1000)) = Ok a3. Proof. vm_compute. reflexivity. Qed.
Lemma a4_run : pool_entry pe A a3 (admin_metas [104]) (put_admin ARemoveAsset) = Ok a4. Proof. vm_compute. reflexivity. Qed.
Lemma a5_run : pool_entry pe A a4 (admin_metas [102; 103]) (put_admin AUnpause) = Ok a5. Proof. vm_compute. reflexivity. Qed.
Lemma a6_run : pool_entry pe A a5 (admin_metas [104]) (put_admin AAddAsset) = Ok a6. Proof. vm_compute. reflexivity. Qed.
Lemma a1_reach : preach pe A a1. Proof. eapply tx_step; [apply Pr_begin; exact begin_z0| |exact a1_run]. tx. Qed.
Lemma a2_reach : preach pe A a2. Proof. eapply tx_step; [exact a1_reach| |exact a2_run]. tx. Qed.
Lemma a3_reach : preach pe A a3. Proof. eapply tx_step; [exact a2_reach| |exact a3_run]. tx. Qed.
Lemma a4_reach : preach pe A a4. Proof. eapply tx_step; [exact a3_reach| |exact a4_run]. tx. Qed.
Lemma a5_reach : preach pe A a5. Proof. eapply tx_step; [exact a4_reach| |exact a5_run]. tx. Qed.
Lemma a6_reach : preach pe A a6. Proof. eapply tx_step; [exact a5_reach| |exact a6_run]. tx. Qed.
Definition a_state (l : list asset) (p : bool) : pstate := mkPstate 101 l sg 255 [] [65; 66] 110 111 2500 (Some 90) (put_custom p).
Lemma a4_pool : pool_at pe a4 100 (a_state [mkAsset 50 102; mkAsset 51 103] true). Proof. apply at_check; vm_compute; reflexivity. Qed.
Lemma a5_pool : pool_at pe a5 100 (a_state [mkAsset 50 102; mkAsset 51 103] false). Proof. apply at_check; vm_compute; reflexivity. Qed.
Lemma a6_pool : pool_at pe a6 100 (a_state [mkAsset 50 102; mkAsset 51 103; mkAsset 52 104] false). Proof. apply at_check; vm_compute; reflexivity. Qed.

(** The creator of the pool closes their fee account 111. *)
Definition zc : pstore := pput z1 111 p_none.
Lemma zc_get k : pget zc k = if 111 =? k then p_none else pget z1 k.
Proof. unfold pget, zc. rewrite pfind_pput. destruct (111 =? k); reflexivity. Qed.
Lemma zc_rely : rely pe z1 zc.
Proof.
  assert (G111 : pget z1 111 = ptok 101 60 0) by (vm_compute; reflexivity).
  constructor.
  - apply good_store. vm_compute. reflexivity.
  - intros k Q. rewrite zc_get. destruct (Z.eqb_spec 111 k) as [<-|]; [rewrite G111 in Q; discriminate|auto].
  - intros k Q N. rewrite zc_get in Q. destruct (111 =? k); [discriminate|contradiction].
  - intros k g (k0 & n0 & G) H. assert (NK : (111 =? k) = false).
    { destruct (Z.eqb_spec 111 k) as [<-|]; [|reflexivity]. exfalso. destruct H as (t & T & O & _). apply ptoken_data in T. rewrite G111 in T. destruct T as [_ T]. injection T as <-. cbn [t_owner] in O. subst g.
      cbn [pe pe_pda] in G. destruct (_ && _) eqn:A in G; [|discriminate]. injection G as G. lia. }
    unfold held, bal, ptoken in *. rewrite zc_get, NK. split; [assumption|lia].
  - intros m g _ H. assert (NK : (111 =? m) = false).
    { destruct (Z.eqb_spec 111 m) as [<-|]; [|reflexivity]. exfalso. destruct H as (i & I & _). apply pmint_data in I. rewrite G111 in I. destruct I; discriminate. }
    unfold minted_by, supply, pmint in *. rewrite zc_get, NK. split; [assumption|lia].
Qed.
Lemma zc_pool : pool_at pe zc 100 z_state.
Proof. unfold pool_at. rewrite zc_get. exact z1_pool. Qed.
