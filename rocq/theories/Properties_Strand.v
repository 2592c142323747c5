(** Referral money that is nobody's (C72).  [unowed m A L]: what market [k] holds for referrers beyond what its accounts
    have to their credit or will have once the queued events are processed.  [stranded]: what a transaction adds to it
    (StrandSpec.v).  [stretch e k s E s']: any transactions, with any bytes and accounts, lead from [s] to [s']. *)
From Verif Require Import Base Fees ListSum Codec Critbit CritbitSlab Market Matching Slots MatchSteps Ledger MatchSpec Core Instr InstrProofs Store Process StoreProofs World WorldSpec LifeSpec AbsentSpec StatementSpec IncomeSpec IncomeProofs StrandSpec StrandProofs WorldExample ExampleAuth ExampleAbsent ExampleIncome.

(** It grows by the whole referral share of every send-take, and by whatever an account has to its credit when it is
    closed; nothing else changes it. *)
Theorem C72_what_strands : forall e, env_ok e -> forall s c i ms s' k m A L m' A' L', history e s -> no_overflow e s -> sized s -> legal e ms -> wf_instr i -> process e c s i ms = Ok s' -> seen e s k m A L -> usable m -> seen e s' k m' A' L' ->
  unowed m' A' L' = unowed m A L + stranded e k m m' s i ms /\ 0 <= stranded e k m m' s i ms.
Proof. exact strand_law. Qed.
Print Assumptions C72_what_strands.
(** It never gets less, whatever anyone does: the vault holds it on top of all that traders, the fee sweeper and
    referrers can be paid. *)
Theorem C72_it_stays : forall e, env_ok e -> forall k s E s' m A L m' A' L', history e s -> stretch e k s E s' -> seen e s k m A L -> usable m -> seen e s' k m' A' L' ->
  0 <= unowed m A L <= unowed m' A' L' /\ holds s' (m_pc_vault m') (m_pc_deposits m' + m_pc_fees m' + (total oo_rebates L' + zsum ev_rebate (a_evs A')) + unowed m A L).
Proof. exact strand_stays. Qed.
Print Assumptions C72_it_stays.
(** So the referral share of a send-take, like that of a closed account, is still there after anything that follows. *)
Theorem C72_for_ever : forall e, env_ok e -> forall s c i ms s1 k m A L m1 A1 L1 E s2 m2 A2 L2, history e s -> no_overflow e s -> sized s -> legal e ms -> forall b, is_bytes b -> unpack b = Some i -> process e c s i ms = Ok s1 -> seen e s k m A L -> usable m -> seen e s1 k m1 A1 L1 ->
  stretch e k s1 E s2 -> seen e s2 k m2 A2 L2 ->
  holds s2 (m_pc_vault m2) (m_pc_deposits m2 + m_pc_fees m2 + (total oo_rebates L2 + zsum ev_rebate (a_evs A2)) + stranded e k m m1 s i ms).
Proof. exact strand_for_ever. Qed.
Print Assumptions C72_for_ever.

(** Somebody without an account buys for 60000 and a fee of 24: four of it go to the referral money, to no account.  After
    the fees are swept they are still there. *)
Lemma in6_h : history ex_env in6.
Proof. refine (proj1 (books_story ex_env ex_env_ok _ _ _ _ _ in6_books w3_h _ _ _ w3_seen w3_usable _)). vm_compute. discriminate. Qed.
Lemma in78 : stretch ex_env 10 in7 ([] ++ []) in8.
Proof.
  apply (stretch_tx ex_env 10 in7 [] in7 ex_clock (pack ISweepFees) ms_in_sweep []);
  [apply stretch_now|apply guard_ok; vm_compute; reflexivity|apply sized_ok; vm_compute; reflexivity|apply bytes_ok; vm_compute; reflexivity|apply legal_ok; vm_compute; reflexivity|].
  do 6 eexists. exists [], (a_evs in7_A). split; [exact in7_seen|]. split; [exact in8_seen|]. repeat split; auto.
Qed.
Example C72_case : env_ok ex_env /\ history ex_env in6 /\ no_overflow ex_env in6 /\ sized in6 /\ legal ex_env ms_in_take /\ is_bytes (pack in_take) /\ unpack (pack in_take) = Some in_take /\ process ex_env ex_clock in6 in_take ms_in_take = Ok in7 /\
  seen ex_env in6 10 in6_m in6_A in6_L /\ usable in6_m /\ seen ex_env in7 10 in7_m in7_A in7_L /\ stretch ex_env 10 in7 ([] ++ []) in8 /\ seen ex_env in8 10 in8_m in8_A in8_L /\
  unowed in6_m in6_A in6_L = 0 /\ stranded ex_env 10 in6_m in7_m in6 in_take ms_in_take = 4 /\ unowed in7_m in7_A in7_L = 4 /\ unowed in8_m in8_A in8_L = 4 /\ m_pc_fees in8_m = 0 /\ total oo_rebates in8_L = 0 /\ zsum ev_rebate (a_evs in8_A) = 0.
Proof.
  split; [exact ex_env_ok|]. split; [exact in6_h|]. split; [apply guard_ok; vm_compute; reflexivity|]. split; [apply sized_ok; vm_compute; reflexivity|]. split; [apply legal_ok; vm_compute; reflexivity|].
  split; [apply bytes_ok; vm_compute; reflexivity|]. split; [vm_compute; reflexivity|]. split; [vm_compute; reflexivity|]. split; [exact in6_seen|]. split; [unfold usable; vm_compute; repeat split; discriminate|].
  split; [exact in7_seen|]. split; [exact in78|]. split; [exact in8_seen|]. repeat split; vm_compute; reflexivity.
Qed.
(** Bob settles before their trade is processed, so that their referrer's 4 arrive after, and closes the account. *)
Definition r3_m : market := Eval vm_compute in fst (fst (of_look r3 10)).
Definition r3_A : astate := Eval vm_compute in snd (fst (of_look r3 10)).
Definition r3_L : list (Z * open_orders) := Eval vm_compute in snd (of_look r3 10).
Definition r4c : store := Eval vm_compute in transact ex_env ex_clock r3 (pack ICloseOO) ms_close.
Definition r4c_A : astate := Eval vm_compute in snd (fst (of_look r4c 10)).
Definition r4c_L : list (Z * open_orders) := Eval vm_compute in snd (of_look r4c 10).
Example C72_case_close : history ex_env r3 /\ no_overflow ex_env r3 /\ sized r3 /\ legal ex_env ms_close /\ wf_instr ICloseOO /\ process ex_env ex_clock r3 ICloseOO ms_close = Ok r4c /\ seen ex_env r3 10 r3_m r3_A r3_L /\ usable r3_m /\ seen ex_env r4c 10 r3_m r4c_A r4c_L /\
  unowed r3_m r3_A r3_L = 0 /\ stranded ex_env 10 r3_m r3_m r3 ICloseOO ms_close = 4 /\ unowed r3_m r4c_A r4c_L = 4.
Proof.
  split; [exact r3_h|]. split; [apply guard_ok; vm_compute; reflexivity|]. split; [apply sized_ok; vm_compute; reflexivity|]. split; [apply legal_ok; vm_compute; reflexivity|]. split; [exact I|]. split; [vm_compute; reflexivity|].
  split; [apply look_seen; vm_compute; reflexivity|]. split; [unfold usable; vm_compute; repeat split; discriminate|]. split; [apply look_seen; vm_compute; reflexivity|]. repeat split; vm_compute; reflexivity.
Qed.
