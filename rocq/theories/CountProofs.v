(** The order counter rises by one for an order (C87); a limit on supply alone. *)
From Verif Require Import Base BaseProofs Fees ListSum Queue Codec Critbit Market Matching Core Instr InstrProofs Store Process StoreProofs World WorldSpec WorldInit WorldRights WorldRent TotalSpec ScarceSpec ScarceProofs WireProofs CountSpec.

(** The counter kept in an account, if it is a request queue. *)
Definition tick (d : adata) : option Z := match d with DReqQ rq => Some (snd rq) | _ => None end.
Definition ticks (s : store) (y : Z) : option Z := tick (a_data (sget s y)).
(** Where [s'] has a counter, it is new and at most [n], or was at least [q' - n]. *)
Definition up (n : Z) (s s' : store) : Prop := forall y q', ticks s' y = Some q' ->
  0 <= q' <= n \/ exists q, ticks s y = Some q /\ (0 <= q -> 0 <= q' <= q + n).
Lemma up_refl s : up 0 s s. Proof. intros y q' H. right. exists q'. split; [exact H|lia]. Qed.
Lemma up_trans a b s1 s2 s3 : 0 <= a -> 0 <= b -> up a s1 s2 -> up b s2 s3 -> up (a + b) s1 s3.
Proof.
  intros A0 B0 A B y q' H. destruct (B y q' H) as [X|(q & Q & X)]; [left; lia|]. destruct (A y q Q) as [Y|(q0 & Q0 & Y)]; [left; lia|right; exists q0; split; [exact Q0|lia]].
Qed.
Lemma up_zero s1 s2 s3 : up 0 s1 s2 -> up 0 s2 s3 -> up 0 s1 s3. Proof. intros A B. exact (up_trans 0 0 _ _ _ (Z.le_refl 0) (Z.le_refl 0) A B). Qed.
Lemma up_then n s1 s2 s3 : 0 <= n -> up n s1 s2 -> up 0 s2 s3 -> up n s1 s3. Proof. intros N A B. pose proof (up_trans n 0 _ _ _ N (Z.le_refl 0) A B) as X. rewrite Z.add_0_r in X. exact X. Qed.
Lemma up_put s k d : tick d = None -> up 0 s (put_data s k d).
Proof. intros T y q' H. unfold ticks in *. rewrite put_data_eq in H. destruct (y =? k); [congruence|]. right. exists q'. split; [exact H|lia]. Qed.
Lemma up_lam s k x : up 0 s (put_lamports s k x).
Proof. intros y q' H. right. exists q'. split; [|lia]. unfold ticks in *. rewrite sget_lam in H. destruct (Z.eqb_spec y k) as [->|]; exact H. Qed.
Lemma up_tick n s s1 k c q q' : up 0 s s1 -> ticks s k = Some q -> 0 <= n -> (0 <= q -> 0 <= q' <= q + n) -> up n s (put_data s1 k (DReqQ (c, q'))).
Proof.
  intros U T N L y z H. unfold ticks in H. rewrite put_data_eq in H. destruct (Z.eqb_spec y k) as [->|].
  - injection H as <-. right. exists q. auto.
  - destruct (U y z H) as [X|(q0 & Q0 & X)]; [left; lia|right; exists q0; split; [exact Q0|lia]].
Qed.
Ltac quietly := match goal with
  | |- up 0 ?s ?s => apply up_refl
  | |- up 0 _ (put_data _ _ _) => eapply up_zero; [|apply up_put; reflexivity]; quietly
  | |- up 0 _ (put_lamports _ _ _) => eapply up_zero; [|apply up_lam]; quietly
  | |- up 0 _ (write_obs _ _ _ _ _ _) => unfold write_obs; quietly
  | |- _ => idtac end.
Ltac peel H := repeat (apply rbind_ok in H; let x := fresh "v" in let P := fresh "P" in destruct H as (x & P & H); try (match type of x with unit => clear P end)).
Lemma up_spl s a b au sg am s' : spl_transfer s a b au sg am = Ok s' -> up 0 s s'.
Proof. intros H. unfold spl_transfer in H. peel H. destruct (a =? b); [injection H as <-; apply up_refl|]. peel H. injection H as <-. quietly. Qed.
Lemma up_in s held a b au am s' : transfer_in s held a b au am = Ok s' -> up 0 s s'.
Proof. intros H. unfold transfer_in in H. destruct (am =? 0); [injection H as <-; apply up_refl|]. peel H. injection H as <-. eapply up_spl. eassumption. Qed.
Lemma up_out s v d sg am s' : send_from_vault s v d sg am = Ok s' -> up 0 s s'.
Proof. intros H. unfold send_from_vault in H. destruct (spl_transfer s v d sg true am) eqn:E; try discriminate. injection H as <-. eapply up_spl. exact E. Qed.
Lemma wadd_up q : 0 <= q -> 0 <= wadd q 1 <= q + 1.
Proof. intros H. unfold wadd, w64. pose proof (Z.mod_pos_bound (q + 1) B64 ltac:(lia)). pose proof (Z.mod_le (q + 1) B64 ltac:(lia) ltac:(lia)). lia. Qed.
Lemma gen_next q p sd id q' : gen_order_id q p sd = (id, q') -> q' = wadd q 1.
Proof. unfold gen_order_id, gen_seq_num. intros [= _ <-]. reflexivity. Qed.
Lemma order_tick o rq oo a t ix bal now o' rq' oo' dep : new_order_core o rq oo a t ix bal now = Ok (o', rq', oo', dep) -> rq' = (fst rq, wadd (snd rq) 1).
Proof.
  intros H. unfold new_order_core in H. destruct (gen_order_id (snd rq) (oi_price ix) (oi_side ix)) as [id sq] eqn:G. apply gen_next in G. subst sq.
  repeat (first [apply rbind_ok in H; destruct H as (? & _ & H)|match type of H with context [match ?x with _ => _ end] => destruct x end|progress cbv zeta in H]); congruence.
Qed.
Lemma take_tick o rq t ix o' rq' dep wd : send_take_core o rq t ix = Ok (o', rq', dep, wd) -> rq' = (fst rq, wadd (snd rq) 1).
Proof.
  intros H. unfold send_take_core in H. destruct (gen_order_id (snd rq) (ti_price ix) (ti_side ix)) as [id sq] eqn:G. apply gen_next in G. subst sq.
  repeat (first [apply rbind_ok in H; destruct H as (? & _ & H)|match type of H with context [match ?x with _ => _ end] => destruct x end|progress cbv zeta in H]); congruence.
Qed.
Section Count.
Variable e : env.
Notation D := (dexd e).
Lemma req_tick s m k rq : load_req_q s m k = Ok rq -> ticks s k = Some (snd rq).
Proof. intros H. unfold load_req_q in H. peel H. unfold ticks. destruct (a_data (sget s k)); try discriminate. injection H as <-. reflexivity. Qed.
Lemma up_order c s ix ms s' : proc_new_order e c s ix ms = Ok s' -> up 1 s s'.
Proof.
  intros H. unfold proc_new_order in H. do 12 (destruct ms as [|? ms]; [discriminate|]). peel H.
  match goal with P : new_order_core _ _ _ _ _ _ _ _ = Ok ?v |- _ => destruct v as [[[o' rq'] oo'] dep]; apply order_tick in P; subst rq' end. cbv zeta in H.
  eapply up_then; [lia| |eapply up_in; exact H]. eapply up_then; [lia| |apply up_put; reflexivity].
  eapply up_tick; [quietly|eapply req_tick; eassumption|lia|apply wadd_up].
Qed.
Lemma up_take s ix ms s' : proc_send_take e s ix ms = Ok s' -> up 1 s s'.
Proof.
  intros H. unfold proc_send_take in H. do 12 (destruct ms as [|? ms]; [discriminate|]). peel H.
  match goal with P : send_take_core _ _ _ _ = Ok ?v |- _ => destruct v as [[[o' rq'] dep] wd]; apply take_tick in P; subst rq' end. cbv zeta in H.
  match type of H with context [match ti_side ix with Bid => ?a | Ask => ?b end] => destruct (match ti_side ix with Bid => a | Ask => b end) as [[[src dv] wv] dst] end.
  apply rbind_ok in H. destruct H as (s2 & T & H). assert (U : up 1 s s2).
  { eapply up_then; [lia| |eapply up_in; exact T]. eapply up_tick; [quietly|eapply req_tick; eassumption|lia|apply wadd_up]. }
  destruct (wd =? 0); [injection H as <-; exact U|]. eapply up_then; [lia|exact U|eapply up_out; exact H].
Qed.
Lemma up_cancel s core ms s' : proc_cancel e s core ms = Ok s' -> up 0 s s'.
Proof.
  intros H. unfold proc_cancel in H. do 6 (destruct ms as [|? ms]; [discriminate|]). peel H. match goal with P : core _ _ _ = Ok ?v |- _ => destruct v as [o' oo'] end. injection H as <-. quietly.
Qed.
Lemma up_orders c ms ixs : forall s s', proc_new_orders e c s ixs ms = Ok s' -> up (Z.of_nat (length ixs)) s s'.
Proof.
  induction ixs as [|ix r IH]; intros s s' H; cbn [proc_new_orders] in H; [injection H as <-; apply up_refl|]. apply rbind_ok in H. destruct H as (s1 & H1 & H).
  replace (Z.of_nat (length (ix :: r))) with (1 + Z.of_nat (length r)) by (cbn [length]; lia). eapply up_trans; [lia|lia|eapply up_order; exact H1|apply IH; exact H].
Qed.
Lemma up_replace c s ixs ms s' : proc_replace e c s ixs ms = Ok s' -> up (Z.of_nat (length ixs)) s s'.
Proof.
  intros H. unfold proc_replace, proc_cancel_cids in H. apply rbind_ok in H. destruct H as (cms & _ & H). apply rbind_ok in H. destruct H as (s1 & H1 & H).
  replace (Z.of_nat (length ixs)) with (0 + Z.of_nat (length ixs)) by lia. eapply up_trans; [lia|lia|eapply up_cancel; exact H1|eapply up_orders; exact H].
Qed.
Lemma up_settle s ms s' : proc_settle e s ms = Ok s' -> up 0 s s'.
Proof.
  intros H. unfold proc_settle in H. do 9 (destruct ms as [|? ms]; [discriminate|]). peel H.
  match goal with P : settle_core _ _ _ = Ok ?v |- _ => destruct v as [[[[m' oo'] ca] pa] rb] end. cbv zeta in H. apply rbind_ok in H. destruct H as (s2 & T1 & H). apply rbind_ok in H. destruct H as (s3 & T2 & H).
  assert (U : up 0 s s3). { eapply up_zero; [|eapply up_out; exact T2]. eapply up_zero; [|eapply up_out; exact T1]. quietly. }
  repeat match type of H with context [match ?x with _ => _ end] => destruct x end; try (injection H as <-; exact U). eapply up_zero; [exact U|eapply up_out; exact H].
Qed.
Lemma up_loop m oos n : forall s q s' q', consume_loop e s m q oos n = Ok (s', q') -> up 0 s s'.
Proof.
  induction n as [|n IH]; intros s q s' q' H; cbn [consume_loop] in H; [injection H as <- _; apply up_refl|]. apply rbind_ok in H. destruct H as ([ev|] & _ & H); [|injection H as <- _; apply up_refl].
  apply rbind_ok in H. destruct H as (v & _ & H). destruct (binary_search oos (e_owner ev)); [|injection H as <- _; apply up_refl]. peel H. eapply up_zero; [|eapply IH; exact H]. quietly.
Qed.
Lemma up_consume s m k oos l s' : consume_with e s m k oos l = Ok s' -> up 0 s s'.
Proof. intros H. unfold consume_with in H. apply rbind_ok in H. destruct H as (q & _ & H). apply rbind_ok in H. destruct H as ([s1 q1] & L & H). injection H as <-. eapply up_zero; [eapply up_loop; exact L|]. quietly. Qed.
Lemma up_fresh s k : up 0 s (put_data s k (DReqQ (0, 0))).
Proof. intros y q' H. unfold ticks in *. rewrite put_data_eq in H. destruct (y =? k); [injection H as <-; left; lia|]. right. exists q'. split; [exact H|lia]. Qed.
Theorem process_up c s i ms s' : process e c s i ms = Ok s' -> up (brought i) s s'.
Proof.
  intros H. destruct i; cbn [process brought] in *; try discriminate.
  - unfold proc_init_market in H. destruct (map mk ms) as [|? [|? [|? [|? [|? [|? [|? [|? [|? [|? ?]]]]]]]]]]; try discriminate. cbv zeta in H. peel H. injection H as <-. quietly. apply up_fresh.
  - injection H as <-. apply up_refl.
  - unfold proc_consume in H. destruct (rev ms) as [|? [|? [|? [|? [|? ?]]]]]; try discriminate. do 2 (apply rbind_ok in H; destruct H as (? & _ & H)). eapply up_consume; exact H.
  - eapply up_settle; exact H.
  - unfold proc_disable in H. destruct ms as [|? [|? [|? ?]]]; try discriminate. peel H. injection H as <-. quietly.
  - unfold proc_sweep in H. destruct ms as [|? [|? [|? [|? [|? [|? [|? ?]]]]]]]; try discriminate. peel H. eapply up_zero; [|eapply up_out; exact H]. quietly.
  - eapply up_order; exact H.
  - eapply up_cancel; exact H.
  - unfold proc_cancel_cid in H. do 1 (apply rbind_ok in H; destruct H as (? & _ & H)). eapply up_cancel; exact H.
  - eapply up_take; exact H.
  - unfold proc_close in H. destruct ms as [|? [|? [|? [|? [|? ?]]]]]; try discriminate. cbv zeta in H. peel H. injection H as <-. quietly.
  - unfold proc_init_oo in H. do 4 (destruct ms as [|? ms]; [discriminate|]). peel H. injection H as <-. quietly.
  - unfold proc_prune in H. destruct ms as [|? [|? [|? [|? [|? [|? [|? [|? ?]]]]]]]]; try discriminate. peel H. match goal with P : prune_core _ _ _ _ = Ok ?v |- _ => destruct v as [o' oo'] end. injection H as <-. quietly.
  - unfold proc_consume_perm in H. destruct (rev ms) as [|? [|? [|? [|? ?]]]]; try discriminate. do 3 (apply rbind_ok in H; destruct H as (? & _ & H)). eapply up_consume; exact H.
  - eapply up_cancel; exact H.
  - exact (up_replace _ _ _ _ _ H).
  - eapply up_replace; exact H.
Qed.
(** One instruction, seen from the accounts of the program. *)
Theorem counter_step c s i ms s' y cnt' q' : process e c s i ms = Ok s' -> D s' y = Some (DReqQ (cnt', q')) ->
  0 <= q' <= brought i \/ exists cnt q, D s y = Some (DReqQ (cnt, q)) /\ (0 <= q -> 0 <= q' <= q + brought i).
Proof.
  intros H Y. destruct (dexd_owned _ _ _ _ Y) as [P DA]. destruct (sizes_kept e _ _ _ _ _ H y) as (_ & PS & _).
  assert (T : ticks s' y = Some q') by (unfold ticks; rewrite DA; reflexivity). destruct (process_up _ _ _ _ _ H y q' T) as [X|(q & Q & X)]; [left; exact X|right].
  unfold ticks in Q. destruct (a_data (sget s y)) as [| |[cnt q0]| | | | | |] eqn:A; try discriminate. cbn [tick snd] in Q. injection Q as ->. exists cnt, q. split; [|exact X].
  unfold dexd. rewrite <- PS, P, Z.eqb_refl, A. reflexivity.
Qed.
Lemma brought_few b i : is_bytes b -> unpack b = Some i -> 0 <= brought i <= 8.
Proof.
  intros HB U. destruct (unpack_pack _ _ HB U) as [WF _]. destruct i; cbn [brought]; try lia. cbn [wf_instr] in WF. lia.
Qed.
Theorem counter_bound G n s : counted e G n s -> forall y cnt q, D s y = Some (DReqQ (cnt, q)) -> 0 <= q <= 8 * Z.of_nat n.
Proof.
  induction 1 as [s GE|n s c b ms H IH G0 SZ HB LG|n s s' H IH R]; intros y cnt q Y.
  - pose proof (ge_blank _ _ GE _ _ Y). discriminate.
  - assert (OLD : D s y = Some (DReqQ (cnt, q)) -> 0 <= q <= 8 * Z.of_nat (S n)) by (intros O; pose proof (IH _ _ _ O); lia).
    unfold transact in Y. destruct (process_bytes e c s b ms) as [s1| |] eqn:E; auto. unfold process_bytes in E. destruct (unpack b) as [i|] eqn:U; [|discriminate]. cbn [ok_or rbind] in E.
    pose proof (brought_few _ _ HB U). destruct (counter_step _ _ _ _ _ _ _ _ E Y) as [X|(c0 & q0 & Q0 & X)]; [lia|]. pose proof (IH _ _ _ Q0). lia.
  - destruct (re_dex _ _ _ R y) as [E|[(E & _)|(E & _)]]; [rewrite E in Y; eauto|congruence|congruence].
Qed.
Lemma counted_reach G n s : counted e G n s -> reachable e G s.
Proof. induction 1; [apply reach_start; assumption|apply reach_tx; assumption|eapply reach_env; eassumption]. Qed.
Lemma counted_scarce K n s : counted e (capped e K) n s -> 8 * Z.of_nat n + 16 < B64 -> counted e (scarce e K) n s.
Proof.
  induction 1 as [s GE|n s c b ms H IH G0 SZ HB LG|n s s' H IH R]; intros L; [apply cn_start; exact GE| |eapply cn_env; eauto].
  apply cn_tx; try assumption; [apply IH; lia|]. intros k m HM P. destruct (G0 k m HM P) as [G1 G2]. split; [exact G1|]. split; [exact G2|].
  intros cn sq Q. pose proof (counter_bound _ _ _ H _ _ _ Q). lia.
Qed.
Theorem supply_alone : env_ok e -> forall K n s, counted e (capped e K) n s -> 8 * Z.of_nat n + 16 < B64 -> history e s /\ (capped e K s -> no_overflow e s).
Proof.
  intros EO K n s H L. pose proof (counted_reach _ _ _ (counted_scarce _ _ _ H L)) as R. destruct (scarce_suffices e EO K s R) as [HI S]. split; [exact HI|]. intros CP. apply S.
  intros k m HM P. destruct (CP k m HM P) as [G1 G2]. split; [exact G1|]. split; [exact G2|]. intros cn sq Q. pose proof (counter_bound _ _ _ H _ _ _ Q). lia.
Qed.
End Count.
