(** C24 once more, and C85.  [scarce e K s]: of neither token of a usable market [k] do all token accounts of [s] together
    hold more than [K k], and that, times the places of the event queue and once more, is below 2^64 (ScarceSpec.v).
    [bundle e s l]: what a transaction of the instructions [l] leaves of [s] (Bundle.v). *)
From Verif Require Import Base Fees ListSum Queue Codec Critbit CritbitSlab Market Slots MatchSteps Ledger MatchSpec Core Instr InstrProofs InstrProofs Store Process StoreProofs Bundle World WorldSpec WorldAuth WorldExample WorldMain WorldRights TotalSpec ScarceSpec ScarceProofs.

(** A limit on the supply of the market's tokens is enough for everything proved of guarded histories.  (That the supply
    is below 2^64 is not: C24_wraps_without_the_guard_refuted.) *)
Theorem C24_limited_supply_suffices : forall e, env_ok e -> forall K s, reachable e (scarce e K) s -> history e s /\ (scarce e K s -> modest e K s /\ no_overflow e s).
Proof. exact scarce_suffices. Qed.
Print Assumptions C24_limited_supply_suffices.

(** If each instruction succeeds after those before it, a transaction of several instructions does what they do one by one, each
    in a transaction of its own; if one of them does not, the transaction has no effect at all. *)
Theorem C85_all_or_nothing : forall e s l, let after l1 := fold_left (fun s0 c => transact e (ca_clock c) s0 (ca_bytes c) (ca_metas c)) l1 s in
  ((forall l1 c l2, l = l1 ++ c :: l2 -> exists s1, process_bytes e (ca_clock c) (after l1) (ca_bytes c) (ca_metas c) = Ok s1) -> bundle e s l = after l) /\
  (forall l1 c l2, l = l1 ++ c :: l2 -> (forall s1, process_bytes e (ca_clock c) (after l1) (ca_bytes c) (ca_metas c) <> Ok s1) -> bundle e s l = s).
Proof. exact bundle_all_or_nothing. Qed.
Print Assumptions C85_all_or_nothing.
(** So its state is one of a history: every theorem about all histories, and every theorem about guarded histories
    if the guard holds before each instruction, holds after it. *)
Theorem C85_is_a_history : forall e s l, anytime e s -> anytime e (bundle e s l).
Proof. exact bundle_anytime. Qed.
Print Assumptions C85_is_a_history.
Theorem C85_is_a_guarded_history : forall e G s l, reachable e G s -> sized s -> Forall (fun c => is_bytes (ca_bytes c) /\ legal e (ca_metas c)) l ->
  (forall l1 c l2 s1, l = l1 ++ c :: l2 -> run_all e s l1 = Ok s1 -> G s1) -> reachable e G (bundle e s l).
Proof. exact bundle_reachable. Qed.
Print Assumptions C85_is_a_guarded_history.
(** It makes and destroys no tokens. *)
Theorem C85_tokens_neither_made_nor_lost : forall e, env_ok e -> forall s l, anytime e s -> let s' := bundle e s l in
  (forall v, token_at s v = None <-> token_at s' v = None) /\
  forall mint K, all_holders s K -> all_holders s' K /\ zsum (holding mint s') K = zsum (holding mint s) K.
Proof. exact bundle_total. Qed.
Print Assumptions C85_tokens_neither_made_nor_lost.

(** No more than 3 * 10^7 of either token exist; the event queue has 128 places. *)
Definition sc_K (_ : Z) : Z := 30000000.
Definition scarce_b (s : store) : bool := forallb (fun ka =>
  match dexd ex_env s (fst ka) with
  | Some (DMarket m) =>
      (zsum (holding (m_coin_mint m) s) (nodup Z.eq_dec (map fst s)) <=? sc_K 0) && (zsum (holding (m_pc_mint m) s) (nodup Z.eq_dec (map fst s)) <=? sc_K 0) &&
      match dexd ex_env s (m_event_q m) with Some (DEventQ q) => sc_K 0 * (1 + zlen (q_buf q)) <? B64 | _ => true end &&
      match dexd ex_env s (m_req_q m) with Some (DReqQ (_, n)) => n + 16 <? B64 | _ => true end
  | _ => true
  end) s.
Lemma scarce_ok s : scarce_b s = true -> scarce ex_env sc_K s.
Proof.
  unfold scarce_b. rewrite forallb_forall. intros H k m E _. destruct (dexd_in _ _ _ E) as (I & _). specialize (H _ I). cbn [fst] in H. rewrite E in H. change (sc_K k) with (sc_K 0).
  apply andb_prop in H. destruct H as [H H4]. apply andb_prop in H. destruct H as [H H3]. apply andb_prop in H. destruct H as [H1 H2]. split; [|split].
  - intros mint L [->| ->] A; rewrite (holders_same s _ L _ A (holders_exist s)); apply Z.leb_le; assumption.
  - intros q Q. rewrite Q in H3. apply Z.ltb_lt. exact H3.
  - intros c n Q. rewrite Q in H4. apply Z.ltb_lt. exact H4.
Qed.
Ltac snext H s b ms := match goal with |- reachable _ _ ?w => replace w with (transact ex_env ex_clock s b ms) by (vm_compute; reflexivity) end;
  apply reach_tx; [exact H|apply scarce_ok|apply sized_ok|apply bytes_ok|apply legal_ok]; vm_compute; reflexivity.
Lemma w3_scarcely : reachable ex_env (scarce ex_env sc_K) w3.
Proof.
  assert (W0 : reachable ex_env (scarce ex_env sc_K) w0) by (apply reach_start, genesis_ok; vm_compute; reflexivity).
  assert (W1 : reachable ex_env (scarce ex_env sc_K) w1) by (snext W0 w0 (pack ix1) ms1).
  assert (W2 : reachable ex_env (scarce ex_env sc_K) w2) by (snext W1 w1 (pack ix2) (ms_order 101 102 100)).
  snext W2 w2 (pack ix3) (ms_order 101 102 100).
Qed.
(** In one transaction Bob's order trades, its fill is consumed and Alice settles. *)
Definition bu_l : list call := [mkCall ex_clock (pack ix4) (ms_order 111 113 110); mkCall ex_clock (pack ix5) ms_consume; mkCall ex_clock (pack ISettleFunds) (ms_settle 101 100 102 103 [])].
Example C85_case : scarce ex_env sc_K w3 /\ bundle ex_env w3 bu_l = w6 /\ w6 <> w3 /\ reachable ex_env (scarce ex_env sc_K) w6.
Proof.
  split; [apply scarce_ok; vm_compute; reflexivity|]. assert (B : bundle ex_env w3 bu_l = w6) by (vm_compute; reflexivity). split; [exact B|]. split; [vm_compute; discriminate|].
  rewrite <- B. apply bundle_reachable; [exact w3_scarcely|apply sized_ok; vm_compute; reflexivity| |].
  - repeat (constructor; [split; [apply bytes_ok; vm_compute; reflexivity|apply legal_ok; vm_compute; reflexivity]|]). constructor.
  - intros l1 c l2 s1 E R. unfold bu_l in E. destruct l1 as [|c1 [|c2 [|c3 [|c4 r]]]]; cbn [app] in E.
    + injection R as <-. apply scarce_ok. vm_compute. reflexivity.
    + injection E as <- _ _. assert (s1 = w4) by (vm_compute in R; injection R as <-; reflexivity). subst s1. apply scarce_ok. vm_compute. reflexivity.
    + injection E as <- <- _ _. assert (s1 = w5) by (vm_compute in R; injection R as <-; reflexivity). subst s1. apply scarce_ok. vm_compute. reflexivity.
    + discriminate E.
    + discriminate E.
Qed.
(** Signed by nobody, the settlement fails, and so the order has not happened either. *)
Definition bu_bad : list call := [mkCall ex_clock (pack ix4) (ms_order 111 113 110); mkCall ex_clock (pack ISettleFunds) (map (fun a => k_ (mk a)) (ms_settle 111 110 112 113 []))].
Example C85_nothing_case : bundle ex_env w3 bu_bad = w3 /\ run_all ex_env w3 (firstn 1 bu_bad) = Ok w4 /\ w4 <> w3.
Proof. split; [vm_compute; reflexivity|]. split; [vm_compute; reflexivity|vm_compute; discriminate]. Qed.
