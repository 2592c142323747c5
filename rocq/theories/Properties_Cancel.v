(** Cancelling and pruning in every state of every history (C28, C29, C36, C45).  [cancels] (WorldSpec.v)
    says exactly which orders leave the book, what their owner gets back and that nothing else changes. *)
From Verif Require Import Base Fees ListSum Codec Critbit CritbitSlab Market Slots MatchSteps Ledger MatchSpec Core Instr Store Process StoreProofs World WorldSpec WorldFacts WorldMain WorldCancel WorldCids WorldExample.

(** C28 *)
Theorem C28_cancel_returns_what_was_locked : forall e, env_ok e -> forall s k m A L, history e s -> seen e s k m A L -> usable m ->
  forall c sd id ms s', process e c s (ICancelV2 sd id) ms = Ok s' -> key_at ms 0 = Some k ->
  exists x oo l, key_at ms 3 = Some x /\ In (x, oo) L /\ signs ms 4 (oo_owner oo) /\ In l (book_of A sd) /\ l_key l = id /\ l_owner l = x /\
    cancels e s s' k m A L x oo (match sd with Bid => [l] | Ask => [] end) (match sd with Ask => [l] | Bid => [] end).
Proof. exact (fun e EO s k m A L H SN P c => cancel_v2_effect e EO s k m A L (reachable_inv e EO s H) SN P c). Qed.
Print Assumptions C28_cancel_returns_what_was_locked.
Theorem C28_nobody_cancels_for_others : forall e, env_ok e -> forall s k m A L, history e s -> seen e s k m A L -> usable m ->
  forall c sd l ms, In l (book_of A sd) -> key_at ms 0 = Some k -> (forall oo, In (l_owner l, oo) L -> ~ signs ms 4 (oo_owner oo)) ->
  forall s', process e c s (ICancelV2 sd (l_key l)) ms <> Ok s'.
Proof. exact (fun e EO s k m A L H SN P c => cancel_foreign e EO s k m A L (reachable_inv e EO s H) SN P c). Qed.
Print Assumptions C28_nobody_cancels_for_others.

(** C29 *)
Theorem C29_owner_can_always_cancel : forall e, env_ok e -> forall s k m A L, history e s -> seen e s k m A L -> usable m ->
  forall c sd l x oo rest, In (x, oo) L -> In l (book_of A sd) -> l_owner l = x -> places e s m 1 ->
  exists s', process e c s (ICancelV2 sd (l_key l))
    (mkMeta k false :: mkMeta (m_bids m) false :: mkMeta (m_asks m) false :: mkMeta x false :: mkMeta (oo_owner oo) true :: mkMeta (m_event_q m) false :: rest) = Ok s'.
Proof. exact (fun e EO s k m A L H SN P c => cancel_succeeds e s k m A L (reachable_inv e EO s H) SN P c). Qed.
Print Assumptions C29_owner_can_always_cancel.
(** The same by client ids, all at once ... *)
Theorem C29_owner_can_always_cancel_by_client_ids : forall e, env_ok e -> forall s k m A L, history e s -> seen e s k m A L -> usable m ->
  forall c x oo cids rest, In (x, oo) L -> places e s m (zlen (with_cid x cids (a_bids A)) + zlen (with_cid x cids (a_asks A))) ->
  exists s', process e c s (ICancelByCids cids)
    (mkMeta k false :: mkMeta (m_bids m) false :: mkMeta (m_asks m) false :: mkMeta x false :: mkMeta (oo_owner oo) true :: mkMeta (m_event_q m) false :: rest) = Ok s'.
Proof. exact (fun e EO s k m A L H => cancel_cids_succeeds e s k m A L (reachable_inv e EO s H)). Qed.
Print Assumptions C29_owner_can_always_cancel_by_client_ids.
(** ... and one by one, if no other slot in use carries the same id. *)
Theorem C29_owner_can_always_cancel_by_client_id : forall e, env_ok e -> forall s k m A L, history e s -> seen e s k m A L -> usable m ->
  forall c x oo sd l rest, In (x, oo) L -> In l (book_of A sd) -> l_owner l = x -> l_cid l <> 0 ->
  (forall j, 0 <= j < 128 -> is_free oo j = false -> cid_at oo j = l_cid l -> j = l_slot l) -> places e s m 1 ->
  exists s', process e c s (ICancelByCid (l_cid l))
    (mkMeta k false :: mkMeta (m_bids m) false :: mkMeta (m_asks m) false :: mkMeta x false :: mkMeta (oo_owner oo) true :: mkMeta (m_event_q m) false :: rest) = Ok s'.
Proof. exact (fun e EO s k m A L H => cancel_cid_succeeds e s k m A L (reachable_inv e EO s H)). Qed.
Print Assumptions C29_owner_can_always_cancel_by_client_id.
(** Refuted without that condition.  Alice gave two orders the id 21; the first is filled and its events wait in the queue.
    The second still rests, but cancelling id 21 only ever tries the first. *)
Definition r3 : store := Eval vm_compute in transact ex_env ex_clock w2 (pack (INewOrderV3 (mkOrderIx Ask 60 2 1 DecrementTake PostOnly 21 65535 I64_MAX))) (ms_order 101 102 100).
Definition r4 : store := Eval vm_compute in transact ex_env ex_clock r3 (pack ix4) (ms_order 111 113 110).
Lemma r3_h : history ex_env r3. Proof. next w2_h w2 (pack (INewOrderV3 (mkOrderIx Ask 60 2 1 DecrementTake PostOnly 21 65535 I64_MAX))) (ms_order 101 102 100). Qed.
Lemma r4_h : history ex_env r4. Proof. next r3_h r3 (pack ix4) (ms_order 111 113 110). Qed.
Definition r4_m : market := Eval vm_compute in fst (fst (of_look r4 10)).
Definition r4_A : astate := Eval vm_compute in snd (fst (of_look r4 10)).
Definition r4_L : list (Z * open_orders) := Eval vm_compute in snd (of_look r4 10).
Lemma r4_seen : seen ex_env r4 10 r4_m r4_A r4_L. Proof. apply look_seen; vm_compute; reflexivity. Qed.
Theorem C29_cancel_by_a_reused_client_id_refuted : exists e s k m A L x oo l, env_ok e /\ history e s /\ seen e s k m A L /\ usable m /\ In (x, oo) L /\
  In l (a_asks A) /\ l_owner l = x /\ l_cid l <> 0 /\ places e s m 1 /\
  let ms := [mkMeta k false; mkMeta (m_bids m) false; mkMeta (m_asks m) false; mkMeta x false; mkMeta (oo_owner oo) true; mkMeta (m_event_q m) false] in
  (forall c s', process e c s (ICancelByCid (l_cid l)) ms <> Ok s') /\ (forall c, exists s', process e c s (ICancelByCids [l_cid l]) ms = Ok s').
Proof.
  exists ex_env, r4, 10, r4_m, r4_A, r4_L, 101, (snd (nth 0 r4_L (0, oo_zero))), (nth 0 (a_asks r4_A) (mkLeaf 0 0 0 0 0 0)).
  split; [exact ex_env_ok|]. split; [exact r4_h|]. split; [exact r4_seen|]. split; [unfold usable; vm_compute; repeat split; discriminate|]. split; [vm_compute; auto|].
  split; [vm_compute; auto|]. split; [vm_compute; reflexivity|]. split; [vm_compute; discriminate|]. split; [eexists; split; [vm_compute; reflexivity|vm_compute; discriminate]|].
  cbv zeta. split; [intros c s'; vm_compute; discriminate|]. intros c. apply succeeds_ok. vm_compute. reflexivity.
Qed.
Print Assumptions C29_cancel_by_a_reused_client_id_refuted.

(** C36 *)
Theorem C36_cancel_by_client_ids : forall e, env_ok e -> forall s k m A L, history e s -> seen e s k m A L -> usable m ->
  forall c cids ms s', process e c s (ICancelByCids cids) ms = Ok s' -> key_at ms 0 = Some k ->
  exists x oo, key_at ms 3 = Some x /\ In (x, oo) L /\ signs ms 4 (oo_owner oo) /\
    cancels e s s' k m A L x oo (with_cid x cids (a_bids A)) (with_cid x cids (a_asks A)).
Proof. exact (fun e EO s k m A L H SN P c => cancel_cids_effect e EO s k m A L (reachable_inv e EO s H) SN P c). Qed.
Print Assumptions C36_cancel_by_client_ids.
Theorem C36_cancel_by_client_id : forall e, env_ok e -> forall s k m A L, history e s -> seen e s k m A L -> usable m ->
  forall c cid ms s', process e c s (ICancelByCid cid) ms = Ok s' -> key_at ms 0 = Some k ->
  cid <> 0 /\ exists x oo sd l, key_at ms 3 = Some x /\ In (x, oo) L /\ signs ms 4 (oo_owner oo) /\ In l (book_of A sd) /\ l_cid l = cid /\ l_owner l = x /\
    cancels e s s' k m A L x oo (match sd with Bid => [l] | Ask => [] end) (match sd with Ask => [l] | Bid => [] end).
Proof. exact (fun e EO s k m A L H SN P c => cancel_cid_effect e EO s k m A L (reachable_inv e EO s H) SN P c). Qed.
Print Assumptions C36_cancel_by_client_id.

(** C45 *)
Theorem C45_prune : forall e, env_ok e -> forall s k m A L, history e s -> seen e s k m A L -> usable m ->
  forall c limit ms s', process e c s (IPrune limit) ms = Ok s' -> key_at ms 0 = Some k -> 0 <= limit ->
  exists x oo bl al, key_at ms 4 = Some x /\ In (x, oo) L /\ key_at ms 5 = Some (oo_owner oo) /\
    has_flag (m_flags m) AF_Permissioned = true /\ signs ms 3 (m_prune_auth m) /\ NoDup bl /\ NoDup al /\
    zlen bl + zlen al <= limit /\ cancels e s s' k m A L x oo bl al /\
    (2 * (zlen (a_bids A) + zlen (a_asks A)) <= limit -> cancels e s s' k m A L x oo (own_orders x (a_bids A)) (own_orders x (a_asks A))).
Proof. exact (fun e EO s k m A L H SN P c => prune_effect e EO s k m A L (reachable_inv e EO s H) SN P c). Qed.
Print Assumptions C45_prune.
(** On an enabled market nothing but a full event queue stops it. *)
Theorem C45_prune_is_possible : forall e, env_ok e -> forall s k m A L, history e s -> seen e s k m A L -> usable m ->
  forall c limit x oo, has_flag (m_flags m) AF_Permissioned = true -> ~ disabled m -> In (x, oo) L -> 0 <= limit ->
  places e s m (Z.min limit (zlen (own_orders x (a_bids A)) + zlen (own_orders x (a_asks A)))) ->
  exists s', process e c s (IPrune limit)
    [mkMeta k false; mkMeta (m_bids m) false; mkMeta (m_asks m) false; mkMeta (m_prune_auth m) true; mkMeta x false; mkMeta (oo_owner oo) false; mkMeta (m_event_q m) false] = Ok s'.
Proof. exact (fun e EO s k m A L H SN P => prune_succeeds e s k m A L (reachable_inv e EO s H) SN P). Qed.
Print Assumptions C45_prune_is_possible.

(** Refuted: that a prune removes as many orders as its limit allows.  The limit counts the nodes of the books that are visited, so a limit of one
    removes nothing, however often it is repeated, from a book with two orders of the account. *)
Theorem C45_prune_uses_its_limit_refuted : exists e s k m A L c ms s' x, env_ok e /\ history e s /\ seen e s k m A L /\ usable m /\ key_at ms 0 = Some k /\ key_at ms 4 = Some x /\
  zlen (own_orders x (a_asks A)) = 2 /\ process e c s (IPrune 1) ms = Ok s' /\ seen e s' k m A L.
Proof.
  destruct (succeeds_ok (process ex_env ex_clock w11 (IPrune 1) ms12)) as (s' & E); [vm_compute; reflexivity|].
  assert (X : s' = match process ex_env ex_clock w11 (IPrune 1) ms12 with Ok t => t | _ => [] end) by (rewrite E; reflexivity).
  exists ex_env, w11, 30, w11_m, w11_A, w11_L, ex_clock, ms12, s', 131. split; [exact ex_env_ok|]. split; [exact w11_h|]. split; [exact w11_seen|]. split; [exact w11_usable|].
  split; [reflexivity|]. split; [reflexivity|]. split; [vm_compute; reflexivity|]. split; [exact E|]. rewrite X. apply look_seen; vm_compute; reflexivity.
Qed.
Print Assumptions C45_prune_uses_its_limit_refuted.

(** ** The hypotheses are met *)
Definition w4_cancel_ms := [mkMeta 10 false; mkMeta 13 false; mkMeta 14 false; mkMeta 111 false; mkMeta 110 true; mkMeta 12 false].
Definition w11_cancel_ms := [mkMeta 30 false; mkMeta 33 false; mkMeta 34 false; mkMeta 131 false; mkMeta 140 true; mkMeta 32 false].
Definition w11_prune_ms := [mkMeta 30 false; mkMeta 33 false; mkMeta 34 false; mkMeta 301 true; mkMeta 131 false; mkMeta 140 false; mkMeta 32 false].

(** Bob's bid of one lot at 55 rests while four events wait: the hypotheses of C28 and C29. *)
Example C28_C29_case : exists e s k m A L l oo, env_ok e /\ history e s /\ seen e s k m A L /\ usable m /\
  In l (a_bids A) /\ In (l_owner l, oo) L /\ places e s m 1 /\ l_qty l = 1 /\ l_price l = 55 /\ worth m Bid l = 55000 /\
  exists s', process e ex_clock s (ICancelV2 Bid (l_key l)) w4_cancel_ms = Ok s' /\ key_at w4_cancel_ms 0 = Some k.
Proof.
  exists ex_env, w4, 10, w4_m, w4_A, w4_L, (nth 0 (a_bids w4_A) (mkLeaf 0 0 0 0 0 0)), (snd (nth 1 w4_L (0, oo_zero))).
  split; [exact ex_env_ok|]. split; [exact w4_h|]. split; [exact w4_seen|]. split; [exact w4_usable|].
  split; [vm_compute; auto|]. split; [vm_compute; auto|]. split; [eexists; split; [vm_compute; reflexivity|vm_compute; discriminate]|].
  split; [vm_compute; reflexivity|]. split; [vm_compute; reflexivity|]. split; [vm_compute; reflexivity|].
  destruct (succeeds_ok (process ex_env ex_clock w4 (ICancelV2 Bid (l_key (nth 0 (a_bids w4_A) (mkLeaf 0 0 0 0 0 0)))) w4_cancel_ms)) as (s' & E); [vm_compute; reflexivity|].
  exists s'. split; [exact E|reflexivity].
Qed.
Example C29_client_id_case : exists oo, history ex_env w11 /\ seen ex_env w11 30 w11_m w11_A w11_L /\ usable w11_m /\ In (131, oo) w11_L /\
  map l_cid (with_cid 131 [32; 31] (a_asks w11_A)) = [31; 32] /\ places ex_env w11 w11_m 2 /\
  exists l, In l (book_of w11_A Ask) /\ l_owner l = 131 /\ l_cid l = 31 /\ (forall j, 0 <= j < 128 -> is_free oo j = false -> cid_at oo j = l_cid l -> j = l_slot l).
Proof.
  eexists. split; [exact w11_h|]. split; [exact w11_seen|]. split; [exact w11_usable|]. split; [vm_compute; left; reflexivity|]. split; [vm_compute; reflexivity|].
  split; [eexists; split; [vm_compute; reflexivity|vm_compute; discriminate]|]. exists (nth 0 (a_asks w11_A) (mkLeaf 0 0 0 0 0 0)). split; [vm_compute; auto|]. split; [vm_compute; reflexivity|]. split; [vm_compute; reflexivity|].
  intros j Hj F E. assert (B : forallb (fun n => let j := Z.of_nat n in is_free (snd (nth 0 w11_L (0, oo_zero))) j || negb (cid_at (snd (nth 0 w11_L (0, oo_zero))) j =? 31) || (j =? 0)) (seq 0 128) = true) by (vm_compute; reflexivity).
  rewrite forallb_forall in B. specialize (B (Z.to_nat j)). rewrite in_seq in B. specialize (B ltac:(lia)). cbv zeta in B. rewrite Z2Nat.id in B by lia.
  change (l_slot (nth 0 (a_asks w11_A) (mkLeaf 0 0 0 0 0 0))) with 0. change (cid_at (snd (nth 0 w11_L (0, oo_zero))) j = 31) in E. change (is_free (snd (nth 0 w11_L (0, oo_zero))) j = false) in F.
  rewrite F, E in B. cbn in B. lia.
Qed.
(** Two asks with client ids 31 and 32: cancelling ids 0, 32 and 99 removes the second one. *)
Example C36_case : exists e s k m A L, env_ok e /\ history e s /\ seen e s k m A L /\ usable m /\
  map l_cid (a_asks A) = [31; 32] /\ map l_cid (with_cid 131 [0; 32; 99] (a_asks A)) = [32] /\
  (exists s', process e ex_clock s (ICancelByCids [0; 32; 99]) w11_cancel_ms = Ok s') /\
  (exists s', process e ex_clock s (ICancelByCid 31) w11_cancel_ms = Ok s').
Proof.
  exists ex_env, w11, 30, w11_m, w11_A, w11_L.
  split; [exact ex_env_ok|]. split; [exact w11_h|]. split; [exact w11_seen|]. split; [exact w11_usable|].
  split; [vm_compute; reflexivity|]. split; [vm_compute; reflexivity|]. split; apply succeeds_ok; vm_compute; reflexivity.
Qed.
(** A budget of 4 removes both asks of the account, a budget of 2 only one. *)
Example C45_case : exists e s k m A L, env_ok e /\ history e s /\ seen e s k m A L /\ usable m /\
  2 * (zlen (a_bids A) + zlen (a_asks A)) = 4 /\
  (exists s', process e ex_clock s (IPrune 4) w11_prune_ms = Ok s' /\ a_asks (snd (fst (of_look s' 30))) = []) /\
  (exists s', process e ex_clock s (IPrune 2) w11_prune_ms = Ok s' /\ zlen (a_asks (snd (fst (of_look s' 30)))) = 1).
Proof.
  exists ex_env, w11, 30, w11_m, w11_A, w11_L.
  split; [exact ex_env_ok|]. split; [exact w11_h|]. split; [exact w11_seen|]. split; [exact w11_usable|]. split; [vm_compute; reflexivity|]. split.
  - destruct (process ex_env ex_clock w11 (IPrune 4) w11_prune_ms) as [s'| |] eqn:E; [exists s'|exfalso; vm_compute in E; discriminate|exfalso; vm_compute in E; discriminate].
    split; [reflexivity|]. assert (F : match process ex_env ex_clock w11 (IPrune 4) w11_prune_ms with Ok s' => a_asks (snd (fst (of_look s' 30))) = [] | _ => False end) by (vm_compute; reflexivity). rewrite E in F. exact F.
  - destruct (process ex_env ex_clock w11 (IPrune 2) w11_prune_ms) as [s'| |] eqn:E; [exists s'|exfalso; vm_compute in E; discriminate|exfalso; vm_compute in E; discriminate].
    split; [reflexivity|]. assert (F : match process ex_env ex_clock w11 (IPrune 2) w11_prune_ms with Ok s' => zlen (a_asks (snd (fst (of_look s' 30)))) = 1 | _ => False end) by (vm_compute; reflexivity). rewrite E in F. exact F.
Qed.
Example C45_possible_case : exists oo, history ex_env w11 /\ seen ex_env w11 30 w11_m w11_A w11_L /\ usable w11_m /\ has_flag (m_flags w11_m) AF_Permissioned = true /\ ~ disabled w11_m /\ In (131, oo) w11_L /\
  Z.min 65535 (zlen (own_orders 131 (a_bids w11_A)) + zlen (own_orders 131 (a_asks w11_A))) = 2 /\ places ex_env w11 w11_m 2.
Proof.
  eexists. split; [exact w11_h|]. split; [exact w11_seen|]. split; [exact w11_usable|]. split; [vm_compute; reflexivity|]. split; [vm_compute; discriminate|].
  split; [vm_compute; left; reflexivity|]. split; [vm_compute; reflexivity|]. eexists. split; [vm_compute; reflexivity|vm_compute; discriminate].
Qed.
