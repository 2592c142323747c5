(** Amounts of token accounts stay 64-bit numbers, and more signers do no harm. *)
From Verif Require Import Base BaseProofs Fees ListSum Queue Codec Critbit Market Matching Core Instr InstrProofs Store Process StoreProofs World WorldInv WorldLoad WorldSpec WorldRights.

Ltac peel H := let x := fresh "v" in let E := fresh "E" in apply rbind_ok in H; destruct H as (x & E & H).
Definition plain (d : adata) : Prop := match d with DToken _ => False | _ => True end.
Lemma amt_put s k d : plain d -> amounts_ok s -> amounts_ok (put_data s k d).
Proof.
  intros P A x t H. apply token_at_inv in H. destruct H as [HP HD]. rewrite put_prog in HP. rewrite put_data_eq in HD.
  destruct (x =? k) eqn:E; [subst d; destruct P|]. apply (A x t). unfold token_at. rewrite HP, Z.eqb_refl, HD. reflexivity.
Qed.
Lemma amt_lam s k l : amounts_ok s -> amounts_ok (put_lamports s k l).
Proof. intros A x t. rewrite token_lam. apply A. Qed.
Lemma amt_obs s a b c d o : amounts_ok s -> amounts_ok (write_obs s a b c d o).
Proof. intros A. unfold write_obs. repeat (apply amt_put; [exact I|]). exact A. Qed.

Section Amounts.
Variable e : env.
Hypothesis EO : env_ok e.
Lemma amt_in s h a b c d s' : transfer_in s h a b c d = Ok s' -> amounts_ok s -> amounts_ok s'.
Proof. intros H A. destruct (transfer_in_ok e (eo_spl _ EO) _ _ _ _ _ _ _ H) as [(_ & ->)|(_ & T & _)]; [exact A|eapply transferred_amounts; eassumption]. Qed.
Lemma amt_out s a b c d s' : send_from_vault s a b c d = Ok s' -> amounts_ok s -> amounts_ok s'.
Proof. intros H A. eapply transferred_amounts; [eapply send_from_vault_ok; [exact (eo_spl _ EO)|exact H]|exact A]. Qed.
Ltac fin A := try discriminate; repeat (first [apply amt_put; [exact I|]|apply amt_obs|apply amt_lam]); exact A.

Lemma amt_order c s ix ms s' : proc_new_order e c s ix ms = Ok s' -> amounts_ok s -> amounts_ok s'.
Proof.
  intros H A. unfold proc_new_order in H. do 12 (destruct ms as [|? ms]; try discriminate). do 16 peel H. destruct v14 as [[[o1 o2] o3] o4].
  eapply amt_in; [exact H|]. fin A.
Qed.
Lemma amt_orders c ms ixs : forall s s', proc_new_orders e c s ixs ms = Ok s' -> amounts_ok s -> amounts_ok s'.
Proof. induction ixs as [|ix r IH]; cbn [proc_new_orders]; intros s s' H A; [injection H as <-; exact A|]. peel H. eapply IH; [exact H|]. eapply amt_order; eassumption. Qed.
Lemma amt_cancel s core ms s' : proc_cancel e s core ms = Ok s' -> amounts_ok s -> amounts_ok s'.
Proof.
  intros H A. unfold proc_cancel in H. do 6 (destruct ms as [|? ms]; try discriminate). do 7 peel H. destruct v5 as [o1 o2]. injection H as <-. fin A.
Qed.
Lemma amt_loop m oos n : forall s q s' q', consume_loop e s m q oos n = Ok (s', q') -> amounts_ok s -> amounts_ok s'.
Proof.
  induction n as [|n IH]; intros s q s' q' H A; cbn [consume_loop] in H; [injection H as <- <-; exact A|]. peel H. destruct v as [ev|]; [|injection H as <- <-; exact A].
  peel H. destruct (binary_search _ _); [|injection H as <- <-; exact A]. do 4 peel H. eapply IH; [exact H|]. fin A.
Qed.
Lemma amt_consume s m q oos n s' : consume_with e s m q oos n = Ok s' -> amounts_ok s -> amounts_ok s'.
Proof. intros H A. unfold consume_with in H. do 2 peel H. destruct v0 as [s1 q1]. injection H as <-. apply amt_put; [exact I|]. eapply amt_loop; eassumption. Qed.
Lemma amt_process c s i ms s' : process e c s i ms = Ok s' -> amounts_ok s -> amounts_ok s'.
Proof.
  intros H A. destruct i; cbn [process] in H; try discriminate.
  - unfold proc_init_market in H. destruct (map mk ms) as [|? [|? [|? [|? [|? [|? [|? [|? [|? [|? auths]]]]]]]]]]; try discriminate.
    do 12 peel H. cbv zeta in H. injection H as <-. fin A.
  - injection H as <-. exact A.
  - unfold proc_consume in H. destruct (rev ms) as [|? [|? [|? [|? [|? ?]]]]]; try discriminate. do 2 peel H. eapply amt_consume; eassumption.
  - unfold proc_settle in H. do 9 (destruct ms as [|? ms]; try discriminate). do 11 peel H. destruct v9 as [[[[m' oo'] ca] pa] rb]. cbv zeta in H. do 2 peel H.
    assert (A3 : amounts_ok v10) by (eapply amt_out; [eassumption|]; eapply amt_out; [eassumption|]; fin A).
    destruct v6, rb; try (injection H as <-; exact A3). eapply amt_out; eassumption.
  - unfold proc_disable in H. destruct ms as [|? [|? [|? ?]]]; try discriminate. do 3 peel H. injection H as <-. fin A.
  - unfold proc_sweep in H. destruct ms as [|? [|? [|? [|? [|? [|? [|? ?]]]]]]]; try discriminate. do 7 peel H. eapply amt_out; [exact H|]. fin A.
  - eapply amt_order; eassumption.
  - eapply amt_cancel; eassumption.
  - unfold proc_cancel_cid in H. peel H. eapply amt_cancel; eassumption.
  - unfold proc_send_take in H. do 12 (destruct ms as [|? ms]; try discriminate). do 15 peel H. destruct v13 as [[[o1 o2] o3] o4]. cbv zeta in H.
    destruct (ti_side ix); peel H; (assert (A2 : amounts_ok v13) by (eapply amt_in; [eassumption|]; fin A)); (destruct (o4 =? 0); [injection H as <-; exact A2|eapply amt_out; eassumption]).
  - unfold proc_close in H. destruct ms as [|? [|? [|? [|? [|? ?]]]]]; try discriminate. do 4 peel H. cbv zeta in H. do 2 peel H. injection H as <-. fin A.
  - unfold proc_init_oo in H. do 4 (destruct ms as [|? ms]; try discriminate). do 4 peel H. injection H as <-. fin A.
  - unfold proc_prune in H. destruct ms as [|? [|? [|? [|? [|? [|? [|? [|? ?]]]]]]]]; try discriminate. do 8 peel H. destruct v6 as [o1 o2]. injection H as <-. fin A.
  - unfold proc_consume_perm in H. destruct (rev ms) as [|? [|? [|? [|? ?]]]]; try discriminate. do 3 peel H. eapply amt_consume; eassumption.
  - eapply amt_cancel; eassumption.
  - unfold proc_replace in H. do 2 peel H. eapply amt_orders; [exact H|]. eapply amt_cancel; eassumption.
  - unfold proc_replace in H. do 2 peel H. eapply amt_orders; [exact H|]. eapply amt_cancel; eassumption.
Qed.
Lemma amt_transact c s b ms : amounts_ok s -> amounts_ok (transact e c s b ms).
Proof.
  intros A. unfold transact. destruct (process_bytes e c s b ms) as [s'|?|] eqn:E; try exact A. unfold process_bytes in E. peel E. eapply amt_process; eassumption.
Qed.
Lemma anytime_amounts s : anytime e s -> amounts_ok s.
Proof. intros (s0 & G & L). induction L; [exact (ge_amt _ _ G)|apply amt_transact; assumption|exact (re_amt _ _ _ H)]. Qed.
End Amounts.

(** ** More signers do no harm *)
Definition meta_le (a b : meta) : Prop := mk b = mk a /\ (mk_signer a = true -> mk_signer b = true).
Definition metas_le (l l' : list meta) : Prop := Forall2 meta_le l l'.
Definition res_le {A} (r r' : res A) : Prop := forall v, r = Ok v -> r' = Ok v.
Lemma le_refl {A} (r : res A) : res_le r r. Proof. intros v H. exact H. Qed.
Lemma le_bind {A B} (x x' : res A) (f f' : A -> res B) : res_le x x' -> (forall a, res_le (f a) (f' a)) -> res_le (rbind x f) (rbind x' f').
Proof. intros HX HF v H. apply rbind_ok in H. destruct H as (a & E & H). rewrite (HX _ E). cbn [rbind]. exact (HF a v H). Qed.
Lemma le_sign a a' : meta_le a a' -> res_le (check_signer a) (check_signer a').
Proof. intros (_ & H) v E. unfold check_signer, check in *. destruct (mk_signer a); [|discriminate]. rewrite (H eq_refl). exact E. Qed.
Lemma le_disc s l l' : metas_le l l' -> res_le (load_discount s l) (load_discount s l').
Proof. intros H. inversion H as [|a b r r' E R]; subst; [apply le_refl|]. inversion R; subst; cbn [load_discount]; [|apply le_refl]. rewrite (proj1 E). apply le_refl. Qed.
Ltac le_go := repeat (first [apply le_refl|apply le_bind; [first [apply le_refl|apply le_sign; assumption|apply le_disc; assumption]|intros ?]|progress cbv zeta]).
Ltac same_keys := repeat match goal with H : meta_le ?a ?b |- context [mk ?b] => rewrite (proj1 H) end.
Ltac inv2 H := match type of H with Forall2 _ _ ?l => inversion H as [|? ? ? ? ? H']; subst; clear H; rename H' into H end.
Lemma metas_keys l l' : metas_le l l' -> map mk l' = map mk l.
Proof. induction 1 as [|a b l l' E H IH]; [reflexivity|]. cbn [map]. rewrite IH, (proj1 E). reflexivity. Qed.
Lemma metas_rev l l' : metas_le l l' -> metas_le (rev l) (rev l').
Proof.
  induction 1 as [|a b l l' E H IH]; [constructor|]. cbn [rev]. apply Forall2_app; [exact IH|]. constructor; [exact E|constructor].
Qed.
Lemma metas_nth l l' i : metas_le l l' -> match nth_error l i, nth_error l' i with Some a, Some b => meta_le a b | None, None => True | _, _ => False end.
Proof. intros H. revert i. induction H; intros [|i]; cbn [nth_error]; auto. apply IHForall2. Qed.
Lemma metas_nths l l' is : metas_le l l' -> match nths l is, nths l' is with Some a, Some b => metas_le a b | None, None => True | _, _ => False end.
Proof.
  intros H. induction is as [|i is IH]; cbn [nths]; [constructor|]. pose proof (metas_nth l l' i H) as N. destruct (nth_error l i), (nth_error l' i); try contradiction; auto.
  destruct (nths l is), (nths l' is); try contradiction; auto. constructor; assumption.
Qed.

Section Mono.
Variable e : env.
Lemma le_order c s ix ms ms' : metas_le ms ms' -> res_le (proc_new_order e c s ix ms) (proc_new_order e c s ix ms').
Proof. intros H. unfold proc_new_order. do 12 (inversion H as [|? ? ? ? ? R]; subst; clear H; [apply le_refl|rename R into H]). cbn [map]. same_keys. le_go. Qed.
Lemma le_orders c ixs ms ms' : metas_le ms ms' -> forall s, res_le (proc_new_orders e c s ixs ms) (proc_new_orders e c s ixs ms').
Proof. intros H. induction ixs as [|ix r IH]; intros s; cbn [proc_new_orders]; [apply le_refl|]. apply le_bind; [apply le_order; assumption|intros; apply IH]. Qed.
Lemma le_cancel s core ms ms' : metas_le ms ms' -> res_le (proc_cancel e s core ms) (proc_cancel e s core ms').
Proof. intros H. unfold proc_cancel. do 6 (inversion H as [|? ? ? ? ? R]; subst; clear H; [apply le_refl|rename R into H]). same_keys. le_go. Qed.
Lemma le_replace c s ixs ms ms' : metas_le ms ms' -> res_le (proc_replace e c s ixs ms) (proc_replace e c s ixs ms').
Proof.
  intros H. unfold proc_replace. pose proof (metas_nths _ _ [0;4;5;1;7;3]%nat H) as N. destruct (nths ms _), (nths ms' _); try contradiction; [|apply le_refl].
  cbn [unwrap rbind]. apply le_bind; [apply le_cancel; assumption|intros; apply le_orders; assumption].
Qed.
Lemma process_mono c s i ms ms' : metas_le ms ms' -> res_le (process e c s i ms) (process e c s i ms').
Proof.
  intros H. destruct i; cbn [process]; try apply le_refl.
  - unfold proc_init_market. rewrite (metas_keys _ _ H). apply le_refl.
  - unfold proc_consume. pose proof (metas_rev _ _ H) as R. do 4 (inversion R as [|? ? ? ? ? R']; subst; clear R; [apply le_refl|rename R' into R]). pose proof (metas_keys _ _ (metas_rev _ _ R)) as K.
    inversion R; subst; [apply le_refl|]. rewrite K. same_keys. le_go.
  - unfold proc_settle. do 9 (inversion H as [|? ? ? ? ? R]; subst; clear H; [apply le_refl|rename R into H]). same_keys. le_go.
    apply le_bind. { inversion H as [|? ? ? ? ? R]; subst; [apply le_refl|]. inversion R; subst; [|apply le_refl]. same_keys. apply le_refl. }
    intros. le_go.
  - unfold proc_disable. do 2 (inversion H as [|? ? ? ? ? R]; subst; clear H; [apply le_refl|rename R into H]). inversion H; subst; [|apply le_refl]. same_keys. le_go.
  - unfold proc_sweep. do 6 (inversion H as [|? ? ? ? ? R]; subst; clear H; [apply le_refl|rename R into H]). inversion H; subst; [|apply le_refl]. same_keys. le_go.
  - apply le_order; assumption.
  - apply le_cancel; assumption.
  - unfold proc_cancel_cid. apply le_bind; [apply le_refl|]. intros. apply le_cancel; assumption.
  - unfold proc_send_take. do 12 (inversion H as [|? ? ? ? ? R]; subst; clear H; [apply le_refl|rename R into H]). cbn [map]. same_keys. le_go.
  - unfold proc_close. do 4 (inversion H as [|? ? ? ? ? R]; subst; clear H; [apply le_refl|rename R into H]). inversion H; subst; [|apply le_refl]. same_keys. le_go.
  - unfold proc_init_oo. do 4 (inversion H as [|? ? ? ? ? R]; subst; clear H; [apply le_refl|rename R into H]).
    apply le_bind. { inversion H as [|? ? ? ? ? R]; subst; [apply le_refl|]. inversion R; subst; [|apply le_refl]. same_keys. le_go. }
    intros. same_keys. le_go.
  - unfold proc_prune. do 7 (inversion H as [|? ? ? ? ? R]; subst; clear H; [apply le_refl|rename R into H]). inversion H; subst; [|apply le_refl]. same_keys. le_go.
  - unfold proc_consume_perm. pose proof (metas_rev _ _ H) as R. do 3 (inversion R as [|? ? ? ? ? R']; subst; clear R; [apply le_refl|rename R' into R]). pose proof (metas_keys _ _ (metas_rev _ _ R)) as K.
    inversion R; subst; [apply le_refl|]. rewrite K. same_keys. le_go.
  - apply le_cancel; assumption.
  - apply le_replace; assumption.
  - apply le_replace; assumption.
Qed.
End Mono.
