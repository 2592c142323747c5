(** The books of a market over a few transactions (C71). *)
From Verif Require Import Base Fees ListSum Codec Critbit CritbitSlab Market Matching Slots MatchSteps Ledger MatchSpec Core Instr InstrProofs Store Process StoreProofs World WorldSpec LifeSpec AbsentSpec StatementSpec IncomeSpec WorldExample ExampleAuth ExampleAbsent.

(** Bob buys four lots from Alice at 50, the events are processed, Bob settles with a referrer, somebody without an
    account buys a lot at 60, and the fees are swept. *)
Definition in_take : instr := ISendTake (mkTakeIx Bid 60 1 70000 1 0 10).
Definition ms_in_take : list meta := map k_ [10; 11; 12; 13; 14; 142; 143] ++ [s_ 140] ++ map k_ [15; 16; spl_id; 900].
Definition ms_in_sweep : list meta := [k_ 10; k_ 16; s_ fee_sweeper; k_ 143; k_ 900; k_ spl_id].
Definition in6 : store := Eval vm_compute in transact ex_env ex_clock w5 (pack ISettleFunds) (ms_settle 111 110 112 113 [150]).
Definition in7 : store := Eval vm_compute in transact ex_env ex_clock in6 (pack in_take) ms_in_take.
Definition in8 : store := Eval vm_compute in transact ex_env ex_clock in7 (pack ISweepFees) ms_in_sweep.
Definition in6_m : market := Eval vm_compute in fst (fst (of_look in6 10)).
Definition in6_A : astate := Eval vm_compute in snd (fst (of_look in6 10)).
Definition in6_L : list (Z * open_orders) := Eval vm_compute in snd (of_look in6 10).
Lemma in6_seen : seen ex_env in6 10 in6_m in6_A in6_L.
Proof. apply look_seen; vm_compute; reflexivity. Qed.
Definition in7_m : market := Eval vm_compute in fst (fst (of_look in7 10)).
Definition in7_A : astate := Eval vm_compute in snd (fst (of_look in7 10)).
Definition in7_L : list (Z * open_orders) := Eval vm_compute in snd (of_look in7 10).
Lemma in7_seen : seen ex_env in7 10 in7_m in7_A in7_L.
Proof. apply look_seen; vm_compute; reflexivity. Qed.
Definition in8_m : market := Eval vm_compute in fst (fst (of_look in8 10)).
Definition in8_A : astate := Eval vm_compute in snd (fst (of_look in8 10)).
Definition in8_L : list (Z * open_orders) := Eval vm_compute in snd (of_look in8 10).
Lemma in8_seen : seen ex_env in8 10 in8_m in8_A in8_L.
Proof. apply look_seen; vm_compute; reflexivity. Qed.
Definition others_b (s : store) (i : instr) (ms : list meta) : bool :=
  match dexd ex_env s 10 with
  | Some (DMarket m) => forallb (fun j => match key_at ms j with Some v => negb (v =? m_coin_vault m) && negb (v =? m_pc_vault m) | None => true end) (payees i)
  | _ => true
  end.
Lemma others_ok s i ms : others_b s i ms = true -> pays_others ex_env 10 s i ms.
Proof.
  unfold others_b. intros B m j v HM _ IJ KJ. rewrite HM in B. rewrite forallb_forall in B. specialize (B j IJ). rewrite KJ in B. destruct (Z.eqb_spec v (m_coin_vault m)), (Z.eqb_spec v (m_pc_vault m)); try discriminate. auto.
Qed.
Ltac bline H old new i ms sn sn' used kept :=
  eapply (books_tx ex_env 10 w3 _ _ old ex_clock (pack i) ms i new);
  [exact H|apply guard_ok; vm_compute; reflexivity|apply sized_ok; vm_compute; reflexivity|apply bytes_ok; vm_compute; reflexivity|apply legal_ok; vm_compute; reflexivity|vm_compute; reflexivity|apply others_ok; vm_compute; reflexivity|vm_compute; reflexivity|];
  do 6 eexists; exists used, kept; split; [exact sn|]; split; [exact sn'|]; split; [vm_compute; reflexivity|]; split; [vm_compute; reflexivity|auto].
Definition in_bought : list event_view := Eval vm_compute in skipn (length (a_evs in6_A)) (a_evs in7_A).
Definition in_l4 := line ex_env 10 w3 w4 ix4 (ms_order 111 113 110).
Definition in_l5 := line ex_env 10 w4 w5 ix5 ms_consume.
Definition in_l6 := line ex_env 10 w5 in6 ISettleFunds (ms_settle 111 110 112 113 [150]).
Definition in_l7 := line ex_env 10 in6 in7 in_take ms_in_take.
Definition in_l8 := line ex_env 10 in7 in8 ISweepFees ms_in_sweep.
Lemma in4_books : books ex_env 10 w3 ([] ++ ab_E) ([] ++ [in_l4]) w4.
Proof. bline (books_now ex_env 10 w3) w3 w4 ix4 (ms_order 111 113 110) w3_seen ab4_seen (@nil event_view) (a_evs w3_A). Qed.
Lemma in5_books : books ex_env 10 w3 (([] ++ ab_E) ++ []) (([] ++ [in_l4]) ++ [in_l5]) w5.
Proof. bline in4_books w4 w5 ix5 ms_consume ab4_seen ab5_seen (a_evs ab4_A) (@nil event_view). Qed.
Lemma in6_books : books ex_env 10 w3 ((([] ++ ab_E) ++ []) ++ []) ((([] ++ [in_l4]) ++ [in_l5]) ++ [in_l6]) in6.
Proof. bline in5_books w5 in6 ISettleFunds (ms_settle 111 110 112 113 [150]) ab5_seen in6_seen (@nil event_view) (a_evs ab5_A). Qed.
Lemma in7_books : books ex_env 10 w3 (((([] ++ ab_E) ++ []) ++ []) ++ in_bought) (((([] ++ [in_l4]) ++ [in_l5]) ++ [in_l6]) ++ [in_l7]) in7.
Proof. bline in6_books in6 in7 in_take ms_in_take in6_seen in7_seen (@nil event_view) (a_evs in6_A). Qed.
Definition in_E : list event_view := (((([] ++ ab_E) ++ []) ++ []) ++ in_bought) ++ [].
Definition in_T : list dealing := (((([] ++ [in_l4]) ++ [in_l5]) ++ [in_l6]) ++ [in_l7]) ++ [in_l8].
Lemma in8_books : books ex_env 10 w3 in_E in_T in8.
Proof. bline in7_books in7 in8 ISweepFees ms_in_sweep in7_seen in8_seen (@nil event_view) (a_evs in7_A). Qed.
