(** C80.  An instruction reads and writes only the accounts it names, and of those only the program's own and token
    accounts; so transactions that do not get into each other's way can be run in either order. *)
From Verif Require Import Base Fees Codec Critbit CritbitSlab Market Matching Slots MatchSteps Core Instr InstrProofs Store Process StoreProofs World WorldInv WorldSpec WorldMain WorldRights LocalSpec LocalProofs ForeignProofs WorldExample ExampleAuth.

(** Two states that agree on the named accounts give the same outcome, and agree on them afterwards. *)
Theorem C80_only_the_named_accounts_matter : forall e c i ms s1 s2, same_at (map mk ms) s1 s2 ->
  same_outcome (process e c s1 i ms) (process e c s2 i ms) /\ forall a b, process e c s1 i ms = Ok a -> process e c s2 i ms = Ok b -> same_at (map mk ms) a b.
Proof. exact only_named_matter. Qed.
Print Assumptions C80_only_the_named_accounts_matter.
(** No other account changes. *)
Theorem C80_only_the_named_accounts_change : forall e c i ms s s', process e c s i ms = Ok s' -> only s s' (map mk ms).
Proof. exact only_named_change. Qed.
Print Assumptions C80_only_the_named_accounts_change.
(** The data of an account that belongs to another program never changes; nor does anything else of it, but for the
    lamports sent to it by closing an open-orders account. *)
Theorem C80_other_programs_accounts_are_untouched : forall e, env_ok e -> forall s c i ms s', anytime e s -> process e c s i ms = Ok s' -> forall x, others e s x ->
  a_data (sget s' x) = a_data (sget s x) /\ (i <> ICloseOO -> sget s' x = sget s x).
Proof. exact foreign_untouched. Qed.
Print Assumptions C80_other_programs_accounts_are_untouched.
(** Two transactions neither of which changes an account the other names can be run in either order, whether they fail or not. *)
Theorem C80_independent_transactions_commute : forall e c1 c2 b1 b2 ms1 ms2 s, let s1 := transact e c1 s b1 ms1 in let s2 := transact e c2 s b2 ms2 in
  same_at (map mk ms2) s s1 -> same_at (map mk ms1) s s2 -> same_world (transact e c2 s1 b2 ms2) (transact e c1 s2 b1 ms1).
Proof. exact transactions_commute. Qed.
Print Assumptions C80_independent_transactions_commute.
(** In particular two transactions that share neither a token account nor an account of the program, unless one closes
    an open-orders account. *)
Theorem C80_disjoint_transactions_commute : forall e, env_ok e -> forall s c1 c2 b1 b2 ms1 ms2, anytime e s -> unpack b1 <> Some ICloseOO -> unpack b2 <> Some ICloseOO ->
  (forall x, In x (map mk ms1) -> In x (map mk ms2) -> others e s x) ->
  same_world (transact e c2 (transact e c1 s b1 ms1) b2 ms2) (transact e c1 (transact e c2 s b2 ms2) b1 ms1).
Proof. exact disjoint_commute. Qed.
Print Assumptions C80_disjoint_transactions_commute.

(** An order on market 30 and an order on market 10: they share the token program and the rent account, and both change the state. *)
Example C80_case : anytime ex_env w10 /\ unpack (pack ix11) <> Some ICloseOO /\ unpack (pack ix3) <> Some ICloseOO /\
  (forall x, In x (map mk ms10) -> In x (map mk (ms_order 101 102 100)) -> others ex_env w10 x) /\ In spl_id (map mk ms10) /\ In spl_id (map mk (ms_order 101 102 100)) /\
  succeeds (process ex_env ex_clock w10 ix11 ms10) = true /\ succeeds (process ex_env ex_clock w10 ix3 (ms_order 101 102 100)) = true /\
  transact ex_env ex_clock w10 (pack ix11) ms10 <> w10 /\ transact ex_env ex_clock w10 (pack ix3) (ms_order 101 102 100) <> w10.
Proof.
  split; [exact (history_anytime _ _ w10_h)|]. split; [vm_compute; discriminate|]. split; [vm_compute; discriminate|]. split.
  { intros x X Y. cbn [map mk ms10 ms_order k_ s_ app] in X, Y. cbn in X, Y. repeat (destruct X as [X|X]; [subst x; repeat (destruct Y as [Y|Y]; [first [discriminate Y|split; vm_compute; discriminate]|]); contradiction|]). contradiction. }
  split; [vm_compute; tauto|]. split; [vm_compute; tauto|]. split; [vm_compute; reflexivity|]. split; [vm_compute; reflexivity|].
  split; intros E; apply (f_equal (fun s => (a_data (sget s 34), a_data (sget s 14)))) in E; vm_compute in E; discriminate.
Qed.
(** Refuted: that any two transactions can be run in either order: of two asks at one price the first comes first. *)
Definition C80_ask (n cid : Z) : bytes := pack (INewOrderV3 (mkOrderIx Ask 60 n 1 DecrementTake PostOnly cid 65535 I64_MAX)).
Theorem C80_any_transactions_commute_refuted : exists e s c b1 b2 ms, env_ok e /\ history e s /\ unpack b1 <> Some ICloseOO /\ unpack b2 <> Some ICloseOO /\
  ~ same_world (transact e c (transact e c s b1 ms) b2 ms) (transact e c (transact e c s b2 ms) b1 ms).
Proof.
  exists ex_env, w10, ex_clock, (C80_ask 2 22), (C80_ask 1 23), (ms_order 101 102 100). split; [exact ex_env_ok|]. split; [exact w10_h|]. split; [vm_compute; discriminate|]. split; [vm_compute; discriminate|].
  intros E. specialize (E 14). apply (f_equal a_data) in E. vm_compute in E. discriminate.
Qed.
Print Assumptions C80_any_transactions_commute_refuted.
