(** C75: a backlog of events keeps nobody out.  [cleared] and [at_work] (BacklogSpec.v) say what the market is afterwards. *)
From Verif Require Import Base Fees ListSum Queue Codec Critbit CritbitSlab Market Slots Matching MatchSteps Ledger MatchSpec Core CoreNew Instr Store Process StoreProofs World WorldInv WorldSpec OpenSpec PlaceSpec TakeSpec ExitSpec WorldMain WorldExit WorldExample BacklogSpec BacklogProofs.

(** However full the queue is, one transaction per unprocessed event, signed by nobody (by the crank authority on a market
    that has one), leaves a state in which every resting order can be cancelled and every order and SendTake that was
    ready before is carried out. *)
Theorem C75_a_backlog_keeps_nobody_out : forall e, env_ok e -> forall c s k m A L, history e s -> no_overflow e s -> sized s -> seen e s k m A L -> usable m ->
  (needs_crank_authority m -> ~ is_pda e (m_crank_auth m)) ->
  exists s1 L1, run e c (cranker m) (length (a_evs A)) s s1 /\ history e s1 /\ no_overflow e s1 /\ sized s1 /\
    cleared e s s1 k m A L L1 /\ at_work e c s s1 k m A L.
Proof. exact (fun e EO c s k m A L H G Z SN P CA => backlog e EO c s k m A L (mkGood e s H G Z) SN P CA). Qed.
Print Assumptions C75_a_backlog_keeps_nobody_out.

(** Bob, whose last trade is not processed, is ready to order again, and to take. *)
Definition ix_more : order_ix := mkOrderIx Bid 61 3 1000000 AbortTransaction Limit 24 7 I64_MAX.
Example C75_case : exists oo, history ex_env w4 /\ no_overflow ex_env w4 /\ sized w4 /\ seen ex_env w4 10 w4_m w4_A w4_L /\ usable w4_m /\ ~ needs_crank_authority w4_m /\
  a_evs w4_A <> [] /\ ~ disabled w4_m /\ thawed w4 (m_coin_vault w4_m) /\ thawed w4 (m_pc_vault w4_m) /\ In (111, oo) w4_L /\
  ready ex_env w4 ex_clock 10 w4_m w4_A w4_L ix_more 111 110 oo 113 [] /\
  0 < to_pay ix_more (m_coin_lot w4_m) oo.
Proof.
  exists (snd (nth 1 w4_L (0, oo_zero))). split; [exact w4_h|]. split; [apply guard_ok; vm_compute; reflexivity|]. split; [apply sized_ok; vm_compute; reflexivity|]. split; [exact w4_seen|]. split; [exact w4_usable|].
  split; [intros (_ & C); vm_compute in C; discriminate C|]. split; [discriminate|]. split; [vm_compute; discriminate|]. split; [eexists; vm_compute; split; reflexivity|]. split; [eexists; vm_compute; split; reflexivity|].
  split; [vm_compute; auto|]. split; [|vm_compute; reflexivity]. constructor.
  - left. split; [vm_compute; auto|vm_compute; reflexivity].
  - vm_compute. repeat constructor.
  - constructor; cbn; unfold u64, I64_MAX; lia.
  - right. reflexivity.
  - cbn. lia.
  - eexists. split; [vm_compute; reflexivity|]. split; [vm_compute; reflexivity|]. split; [vm_compute; reflexivity|]. split; [vm_compute; reflexivity|]. split; [vm_compute; discriminate|]. right. split; [vm_compute; discriminate|vm_compute; reflexivity].
  - left. reflexivity.
  - vm_compute. discriminate.
  - intros X; vm_compute in X; repeat (destruct X as [X|X]; [discriminate|]); exact X.
  - intros t Ht. vm_compute in Ht. injection Ht as <-. vm_compute. reflexivity.
  - vm_compute. reflexivity.
  - vm_compute. reflexivity.
  - vm_compute. reflexivity.
  - intros _ _ (l & X & E & _); vm_compute in X; repeat (destruct X as [X|X]; [rewrite <- X in E; discriminate|]); exact X.
Qed.
Example C75_case_take : ready_take ex_env w4 10 w4_m Ask 50 1 1 10 112 113 110 900 [].
Proof.
  constructor; try lia.
  - vm_compute. reflexivity.
  - eexists. split; [vm_compute; reflexivity|]. split; [vm_compute; reflexivity|]. split; [vm_compute; reflexivity|]. split; [vm_compute; reflexivity|]. split; [vm_compute; discriminate|]. right. split; [vm_compute; discriminate|vm_compute; reflexivity].
  - eexists. split; [vm_compute; reflexivity|vm_compute; repeat split; reflexivity].
  - left. reflexivity.
  - intros v [<-|[<-|[]]]; split; vm_compute; discriminate.
  - intros X. vm_compute in X. repeat (destruct X as [X|X]; [discriminate|]). exact X.
  - vm_compute. reflexivity.
  - intros t Ht. vm_compute in Ht. injection Ht as <-. vm_compute. reflexivity.
Qed.
