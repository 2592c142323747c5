(** The whole life of an account (C66). *)
From Verif Require Import Base Fees ListSum Codec Critbit CritbitSlab Market Matching Slots MatchSteps Ledger MatchSpec Core Instr InstrProofs Store Process StoreProofs World WorldSpec LifeSpec AbsentSpec StatementSpec WorldExample ExampleAuth ExampleAbsent.

(** Bob has no account on the market.  He bids for 5 lots at 55: four come from Alice at 50 and one rests.  The events
    are processed, Bob withdraws the rest, the events are processed again, Bob settles and closes the account. *)
Definition st6 : store := Eval vm_compute in transact ex_env ex_clock w5 (pack (ICancelByCid 23)) ms_cancel.
Definition st7 : store := Eval vm_compute in transact ex_env ex_clock st6 (pack ix5) ms_consume.
Definition st8 : store := Eval vm_compute in transact ex_env ex_clock st7 (pack ISettleFunds) (ms_settle 111 110 112 113 [150]).
Definition st9 : store := Eval vm_compute in transact ex_env ex_clock st8 (pack ICloseOO) ms_close.
Definition st6_m : market := Eval vm_compute in fst (fst (of_look st6 10)).
Definition st6_A : astate := Eval vm_compute in snd (fst (of_look st6 10)).
Definition st6_L : list (Z * open_orders) := Eval vm_compute in snd (of_look st6 10).
Lemma st6_seen : seen ex_env st6 10 st6_m st6_A st6_L.
Proof. apply look_seen; vm_compute; reflexivity. Qed.
Definition st7_m : market := Eval vm_compute in fst (fst (of_look st7 10)).
Definition st7_A : astate := Eval vm_compute in snd (fst (of_look st7 10)).
Definition st7_L : list (Z * open_orders) := Eval vm_compute in snd (of_look st7 10).
Lemma st7_seen : seen ex_env st7 10 st7_m st7_A st7_L.
Proof. apply look_seen; vm_compute; reflexivity. Qed.
Definition st8_m : market := Eval vm_compute in fst (fst (of_look st8 10)).
Definition st8_A : astate := Eval vm_compute in snd (fst (of_look st8 10)).
Definition st8_L : list (Z * open_orders) := Eval vm_compute in snd (of_look st8 10).
Lemma st8_seen : seen ex_env st8 10 st8_m st8_A st8_L.
Proof. apply look_seen; vm_compute; reflexivity. Qed.
Definition st9_m : market := Eval vm_compute in fst (fst (of_look st9 10)).
Definition st9_A : astate := Eval vm_compute in snd (fst (of_look st9 10)).
Definition st9_L : list (Z * open_orders) := Eval vm_compute in snd (of_look st9 10).
Lemma st9_seen : seen ex_env st9 10 st9_m st9_A st9_L.
Proof. apply look_seen; vm_compute; reflexivity. Qed.
Definition st_cancelled : list event_view := Eval vm_compute in a_evs st6_A.
Ltac line H old new i ms sn sn' used kept :=
  eapply (statement_tx ex_env 10 111 w3 _ _ old ex_clock (pack i) ms i new);
  [exact H|apply guard_ok; vm_compute; reflexivity|apply sized_ok; vm_compute; reflexivity|apply bytes_ok; vm_compute; reflexivity|apply legal_ok; vm_compute; reflexivity|vm_compute; reflexivity|vm_compute; reflexivity|];
  do 6 eexists; exists used, kept; split; [exact sn|]; split; [exact sn'|]; split; [vm_compute; reflexivity|]; split; [vm_compute; reflexivity|auto].
Definition line4 := entry ex_env 10 111 w3 w4 ix4 (ms_order 111 113 110).
Definition line5 := entry ex_env 10 111 w4 w5 ix5 ms_consume.
Definition line6 := entry ex_env 10 111 w5 st6 (ICancelByCid 23) ms_cancel.
Definition line7 := entry ex_env 10 111 st6 st7 ix5 ms_consume.
Definition line8 := entry ex_env 10 111 st7 st8 ISettleFunds (ms_settle 111 110 112 113 [150]).
Definition line9 := entry ex_env 10 111 st8 st9 ICloseOO ms_close.
Definition st_E : list event_view := ((((([] ++ ab_E) ++ []) ++ st_cancelled) ++ []) ++ []) ++ [].
Definition st_T : list amounts := ((((([] ++ [line4]) ++ [line5]) ++ [line6]) ++ [line7]) ++ [line8]) ++ [line9].
Lemma st4_line : statement ex_env 10 111 w3 ([] ++ ab_E) ([] ++ [line4]) w4.
Proof. line (statement_now ex_env 10 111 w3) w3 w4 ix4 (ms_order 111 113 110) w3_seen ab4_seen (@nil event_view) (a_evs w3_A). Qed.
Lemma st5_line : statement ex_env 10 111 w3 (([] ++ ab_E) ++ []) (([] ++ [line4]) ++ [line5]) w5.
Proof. line st4_line w4 w5 ix5 ms_consume ab4_seen ab5_seen (a_evs ab4_A) (@nil event_view). Qed.
Lemma st6_line : statement ex_env 10 111 w3 ((([] ++ ab_E) ++ []) ++ st_cancelled) ((([] ++ [line4]) ++ [line5]) ++ [line6]) st6.
Proof. line st5_line w5 st6 (ICancelByCid 23) ms_cancel ab5_seen st6_seen (@nil event_view) (a_evs ab5_A). Qed.
Lemma st7_line : statement ex_env 10 111 w3 (((([] ++ ab_E) ++ []) ++ st_cancelled) ++ []) (((([] ++ [line4]) ++ [line5]) ++ [line6]) ++ [line7]) st7.
Proof. line st6_line st6 st7 ix5 ms_consume st6_seen st7_seen (a_evs st6_A) (@nil event_view). Qed.
Lemma st8_line : statement ex_env 10 111 w3 ((((([] ++ ab_E) ++ []) ++ st_cancelled) ++ []) ++ []) ((((([] ++ [line4]) ++ [line5]) ++ [line6]) ++ [line7]) ++ [line8]) st8.
Proof. line st7_line st7 st8 ISettleFunds (ms_settle 111 110 112 113 [150]) st7_seen st8_seen (@nil event_view) (@nil event_view). Qed.
Lemma st9_line : statement ex_env 10 111 w3 st_E st_T st9.
Proof. line st8_line st8 st9 ICloseOO ms_close st8_seen st9_seen (@nil event_view) (@nil event_view). Qed.
