(** The client-side builders: their bytes decode, they mark every account the program may change, and they work. *)
From Verif Require Import Base BaseProofs Fees ListSum Queue QueueProofs Codec CodecProofs Critbit CritbitProofs CritbitSlab Market Matching MatchSteps MatchSpec Ledger Slots Core CoreInv CoreNew Instr InstrProofs Store Process StoreProofs World WorldInv WorldLoad WorldConsume WorldMain WorldSpec WorldFacts WorldFwd WorldCancel WorldPay Client ClientSpec.

Lemma built_data ci i sg : built ci i sg -> ci_data ci = pack i.
Proof. intros []; reflexivity. Qed.
Lemma built_signers ci i sg : built ci i sg -> signers ci = sg.
Proof.
  assert (F : forall oos, filter am_signer (map rw oos) = []) by (induction oos as [|x r IH]; [reflexivity|exact IH]).
  intros []; unfold signers; cbn [ci_accounts b_initialize_market b_new_order b_match_orders b_consume_events b_consume_events_permissioned b_settle_funds b_send_take b_init_open_orders];
    rewrite ?filter_app, ?F; repeat match goal with o : option Z |- _ => destruct o end; reflexivity.
Qed.
Theorem built_decodes ci i sg : built ci i sg -> wf_instr i -> unpack (ci_data ci) = Some i.
Proof. intros B W. rewrite (built_data _ _ _ B). apply pack_unpack. exact W. Qed.
Lemma built_runs e c s ci i sg : built ci i sg -> wf_instr i -> process_bytes e c s (ci_data ci) (as_given ci) = process e c s i (as_given ci).
Proof. intros B W. unfold process_bytes. rewrite (built_decodes _ _ _ B W). reflexivity. Qed.

(** ** Which accounts an instruction may change *)
Ltac peel H := repeat (let v := fresh "v" in let E := fresh "E" in apply rbind_ok in H; destruct H as (v & E & H); try (destruct v as [[[? ?] ?] ?] || destruct v as [[? ?] ?] || destruct v as [? ?])).
Lemma only_refl s ys : only s s ys. Proof. intros y _. reflexivity. Qed.
Lemma only_write s s1 ys k b a q o : only s s1 ys -> incl [k; b; a; q] ys -> only s (write_obs s1 k b a q o) ys.
Proof.
  intros H I y N. unfold write_obs. rewrite !sget_put. assert (F : forall z, In z [k; b; a; q] -> (y =? z) = false). { intros z Z. apply Z.eqb_neq. intros ->. apply N, I, Z. }
  rewrite !F by (cbn; tauto). apply H, N.
Qed.
Lemma only_put_in s s1 ys x d : only s s1 ys -> In x ys -> only s (put_data s1 x d) ys.
Proof. intros H I y N. rewrite sget_put. destruct (Z.eqb_spec y x) as [->|]; [contradiction|]. apply H, N. Qed.
Lemma only_lam_in s s1 ys x d : only s s1 ys -> In x ys -> only s (put_lamports s1 x d) ys.
Proof. intros H I y N. rewrite sget_lam. destruct (Z.eqb_spec y x) as [->|]; [contradiction|]. apply H, N. Qed.
Lemma only_step s s1 s2 ys p : only s s1 ys -> only s1 s2 p -> incl p ys -> only s s2 ys.
Proof. intros H1 H2 I y N. rewrite H2; [apply H1, N|]. intros X. apply N, I, X. Qed.
Lemma consume_only e m oos : forall n s q s' q' ys, consume_loop e s m q oos n = Ok (s', q') -> incl oos ys -> only s s' ys.
Proof.
  induction n as [|n IH]; intros s q s' q' ys H I; cbn [consume_loop] in H; [injection H as <- <-; apply only_refl|].
  apply rbind_ok in H. destruct H as ([ev|] & E & H); [|injection H as <- <-; apply only_refl]. apply rbind_ok in H. destruct H as (v & _ & H).
  destruct (binary_search oos (e_owner ev)) eqn:B; [|injection H as <- <-; apply only_refl]. apply binary_search_sound in B.
  do 4 (apply rbind_ok in H; destruct H as (? & _ & H)). eapply only_step; [apply only_put_in; [apply only_refl|exact (I _ B)]|eapply IH; [exact H|exact I]|apply incl_refl].
Qed.

Ltac open H := repeat match type of H with
  | rbind _ _ = Ok _ => let v := fresh "v" in let E := fresh "E" in apply rbind_ok in H; destruct H as (v & E & H);
      repeat match type of E with _ = @Ok (_ * _) ?p => is_var p; destruct p | _ = Ok (?p, _) => is_var p; match type of p with prod _ _ => destruct p end | _ = Ok (?p, _, _) => is_var p; match type of p with prod _ _ => destruct p end | _ = Ok (?p, _, _, _) => is_var p; match type of p with prod _ _ => destruct p end end; cbv beta iota zeta in H
  end.
Ltac here := solve [cbn [In]; tauto | intros ? ?; cbn [In] in *; tauto].
Ltac grow := repeat (apply only_put_in; [|here]); try (apply only_write; [|here]); try apply only_refl.
Ltac back := repeat match goal with T : only ?a ?b _ |- only _ ?b _ => eapply only_step; [clear T|exact T|here] end; grow.
Section Writes.
Variables (e : env) (c : clock) (s : store).
Lemma new_order_only ix k x rq q b a payer w cv pv spl rent disc s' :
  proc_new_order e c s ix (k :: x :: rq :: q :: b :: a :: payer :: w :: cv :: pv :: spl :: rent :: disc) = Ok s' ->
  only s s' [mk k; mk x; mk rq; mk q; mk b; mk a; mk payer; mk cv; mk pv].
Proof.
  intros H. unfold proc_new_order in H. open H. apply take_in_only in H. eapply only_step; [|exact H|destruct (oi_side ix); here]. grow.
Qed.
Lemma send_take_only ix k rq q b a cw pw w cv pv spl vs disc s' :
  proc_send_take e s ix (k :: rq :: q :: b :: a :: cw :: pw :: w :: cv :: pv :: spl :: vs :: disc) = Ok s' ->
  only s s' [mk k; mk rq; mk q; mk b; mk a; mk cw; mk pw; mk cv; mk pv].
Proof.
  intros H. unfold proc_send_take in H. open H. destruct (ti_side ix); open H.
  all: match goal with T : transfer_in _ _ _ _ _ _ = Ok _ |- _ => apply take_in_only in T; rename T into T0 end.
  all: match type of H with (if ?z =? 0 then _ else _) = _ => destruct (z =? 0); [injection H as <-; eapply only_step; [|exact T0|here]; grow|] end.
  all: apply send_only in H; eapply only_step; [eapply only_step; [|exact T0|here]; grow|exact H|here].
Qed.
Lemma cancel_only core k b a x w q rest s' : proc_cancel e s core (k :: b :: a :: x :: w :: q :: rest) = Ok s' -> only s s' [mk k; mk b; mk a; mk x; mk q].
Proof. intros H. unfold proc_cancel in H. open H. injection H as <-. grow. Qed.
Lemma prune_only n k b a au x w q s' : proc_prune e s n [k; b; a; au; x; w; q] = Ok s' -> only s s' [mk k; mk b; mk a; mk x; mk q].
Proof. intros H. unfold proc_prune in H. open H. injection H as <-. grow. Qed.
Lemma settle_only k x w cv pv cw pw vs spl s' : proc_settle e s [k; x; w; cv; pv; cw; pw; vs; spl] = Ok s' ->
  only s s' [mk k; mk x; mk cv; mk pv; mk cw; mk pw].
Proof.
  intros H. unfold proc_settle in H. open H. match goal with T : Ok None = Ok ?v |- _ => injection T as <- end. injection H as <-.
  repeat match goal with T : send_from_vault _ _ _ _ _ = Ok _ |- _ => apply send_only in T end.
  back.
Qed.
Lemma settle_ref_only k x w cv pv cw pw vs spl r s' : proc_settle e s [k; x; w; cv; pv; cw; pw; vs; spl; r] = Ok s' ->
  only s s' [mk k; mk x; mk cv; mk pv; mk cw; mk pw; mk r].
Proof.
  intros H. unfold proc_settle in H. open H. match goal with T : rbind (load_pc_wallet s _ (mk r)) _ = Ok ?v |- _ => open T; injection T as <- end.
  repeat match goal with T : send_from_vault _ _ _ _ _ = Ok _ |- _ => apply send_only in T end.
  match type of H with (match ?o with _ => _ end) = _ => destruct o end.
  - apply send_only in H. back.
  - injection H as <-. back.
Qed.
Lemma sweep_only k pv au dst vs spl s' : proc_sweep e s [k; pv; au; dst; vs; spl] = Ok s' -> only s s' [mk k; mk pv; mk dst].
Proof. intros H. unfold proc_sweep in H. open H. apply send_only in H. eapply only_step; [|exact H|here]. grow. Qed.
Lemma disable_only k au s' : proc_disable e s [k; au] = Ok s' -> only s s' [mk k].
Proof. intros H. unfold proc_disable in H. open H. injection H as <-. grow. Qed.
Lemma close_only x w dest k s' : proc_close e s [x; w; dest; k] = Ok s' -> only s s' [mk x; mk dest].
Proof. intros H. unfold proc_close in H. open H. injection H as <-. apply only_put_in; [|here]. apply only_lam_in; [|here]. apply only_lam_in; [|here]. apply only_refl. Qed.
Lemma init_oo_only x w k r rest s' : proc_init_oo e c s (x :: w :: k :: r :: rest) = Ok s' -> only s s' [mk x].
Proof. intros H. unfold proc_init_oo in H. open H. injection H as <-. grow. Qed.
Lemma consume_with_only m q oos n s' : consume_with e s m q oos n = Ok s' -> only s s' (oos ++ [q]).
Proof.
  intros H. unfold consume_with in H. open H. injection H as <-. apply only_put_in; [|apply in_app_iff; right; here]. eapply consume_only; [eassumption|]. intros y I. apply in_app_iff. left. exact I.
Qed.
Lemma init_market_only ix k rq q b a rest s' ms : map mk ms = k :: rq :: q :: b :: a :: rest -> proc_init_market e c s ix ms = Ok s' -> only s s' [k; rq; q; b; a].
Proof.
  intros KM H. unfold proc_init_market in H. rewrite KM in H. destruct rest as [|? [|? [|? [|? [|? ?]]]]]; try discriminate. cbn iota in H. open H. injection H as <-. grow.
Qed.
End Writes.
Lemma given_rw oos : map (fun a => mkMeta (am_key a) (am_signer a)) (map rw oos) = map (fun x => mkMeta x false) oos.
Proof. rewrite map_map. reflexivity. Qed.
Lemma writable_rw oos rest : map am_key (filter am_writable (map rw oos ++ rest)) = oos ++ map am_key (filter am_writable rest).
Proof. rewrite filter_app, map_app. f_equal. induction oos as [|x r IH]; [reflexivity|]. cbn. f_equal. exact IH. Qed.
Theorem built_writes e c s ci i sg s' : built ci i sg -> wf_instr i -> process_bytes e c s (ci_data ci) (as_given ci) = Ok s' -> only s s' (writable ci).
Proof.
  intros B W H. rewrite (built_runs _ _ _ _ _ _ B W) in H. destruct B; cbn [process] in H.
  - eapply init_market_only in H; [|reflexivity]. eapply only_step; [apply only_refl|exact H|]. unfold writable. cbn [b_initialize_market ci_accounts]. rewrite filter_app, map_app. intros y I. apply in_app_iff. left. cbn. cbn [In] in I. tauto.
  - destruct srm; (apply new_order_only in H; exact H).
  - injection H as <-. apply only_refl.
  - unfold proc_consume, as_given, b_consume_events in H. cbn [ci_accounts] in H. rewrite map_app, given_rw, rev_app_distr in H. cbn [map rev app rw am_key am_signer] in H.
    destruct (rev (map (fun x => mkMeta x false) oos)) as [|z zs] eqn:R; [discriminate|]. open H. apply consume_with_only in H. cbn [mk] in H.
    rewrite <- R, rev_involutive, map_map in H. cbn [mk] in H. rewrite map_id in H. eapply only_step; [apply only_refl|exact H|]. unfold writable. cbn [ci_accounts b_consume_events]. rewrite writable_rw. intros y I. apply in_app_iff in I. apply in_app_iff. destruct I; [left; assumption|right; cbn; cbn [In] in *; tauto].
  - unfold proc_consume_perm, as_given, b_consume_events_permissioned in H. cbn [ci_accounts] in H. rewrite map_app, given_rw, rev_app_distr in H. cbn [map rev app rw sg am_key am_signer] in H.
    destruct (rev (map (fun x => mkMeta x false) oos)) as [|z zs] eqn:R; [discriminate|]. open H. apply consume_with_only in H. cbn [mk] in H.
    rewrite <- R, rev_involutive, map_map in H. cbn [mk] in H. rewrite map_id in H. eapply only_step; [apply only_refl|exact H|]. unfold writable. cbn [ci_accounts b_consume_events_permissioned]. rewrite writable_rw. intros y I. apply in_app_iff in I. apply in_app_iff. destruct I; [left; assumption|right; cbn; cbn [In] in *; tauto].
  - unfold proc_cancel_v2 in H. apply cancel_only in H. exact H.
  - destruct ref; [apply settle_ref_only in H|apply settle_only in H]; exact H.
  - unfold proc_cancel_cid in H. open H. apply cancel_only in H. exact H.
  - unfold proc_cancel_cids in H. apply cancel_only in H. exact H.
  - apply disable_only in H. exact H.
  - apply sweep_only in H. exact H.
  - destruct srm; (apply send_take_only in H; exact H).
  - apply close_only in H. exact H.
  - destruct auth; (apply init_oo_only in H; exact H).
  - apply prune_only in H. exact H.
Qed.
