(** What Bob and Alice can gain and lose (C74). *)
From Verif Require Import Base Fees ListSum Codec Critbit CritbitSlab Market Matching Slots MatchSteps Ledger MatchSpec Core Instr InstrProofs Store Process StoreProofs World WorldSpec LifeSpec AbsentSpec StatementSpec OpenSpec ExposureSpec WorldExample ExampleAuth ExampleAbsent ExampleStatement.

(** The life of Bob's account as in ExampleStatement.v: the bid is the only order it ever places. *)
Ltac deal H old new i ms sn sn' used kept :=
  eapply (dealings_tx ex_env 10 _ w3 _ _ _ old ex_clock (pack i) ms i new);
  [exact H|apply guard_ok; vm_compute; reflexivity|apply sized_ok; vm_compute; reflexivity|apply bytes_ok; vm_compute; reflexivity|apply legal_ok; vm_compute; reflexivity|vm_compute; reflexivity|vm_compute; reflexivity|];
  do 6 eexists; exists used, kept; split; [exact sn|]; split; [exact sn'|]; split; [vm_compute; reflexivity|]; split; [vm_compute; reflexivity|auto].
Definition ex_B4 : list order_ix := [] ++ asked 10 111 ix4 (ms_order 111 113 110).
Definition ex_B : list order_ix := ((((ex_B4 ++ asked 10 111 ix5 ms_consume) ++ asked 10 111 (ICancelByCid 23) ms_cancel) ++ asked 10 111 ix5 ms_consume) ++ asked 10 111 ISettleFunds (ms_settle 111 110 112 113 [150])) ++ asked 10 111 ICloseOO ms_close.
Lemma ex_deal4 : dealings ex_env 10 111 w3 ([] ++ ab_E) ex_B4 ([] ++ [line4]) w4.
Proof. deal (dealings_now ex_env 10 111 w3) w3 w4 ix4 (ms_order 111 113 110) w3_seen ab4_seen (@nil event_view) (a_evs w3_A). Qed.
Lemma ex_deal : dealings ex_env 10 111 w3 st_E ex_B st_T st9.
Proof.
  assert (H5 : dealings ex_env 10 111 w3 (([] ++ ab_E) ++ []) (ex_B4 ++ asked 10 111 ix5 ms_consume) (([] ++ [line4]) ++ [line5]) w5) by (deal ex_deal4 w4 w5 ix5 ms_consume ab4_seen ab5_seen (a_evs ab4_A) (@nil event_view)).
  assert (H6 : dealings ex_env 10 111 w3 ((([] ++ ab_E) ++ []) ++ st_cancelled) ((ex_B4 ++ asked 10 111 ix5 ms_consume) ++ asked 10 111 (ICancelByCid 23) ms_cancel) ((([] ++ [line4]) ++ [line5]) ++ [line6]) st6)
    by (deal H5 w5 st6 (ICancelByCid 23) ms_cancel ab5_seen st6_seen (@nil event_view) (a_evs ab5_A)).
  assert (H7 : dealings ex_env 10 111 w3 (((([] ++ ab_E) ++ []) ++ st_cancelled) ++ []) (((ex_B4 ++ asked 10 111 ix5 ms_consume) ++ asked 10 111 (ICancelByCid 23) ms_cancel) ++ asked 10 111 ix5 ms_consume) (((([] ++ [line4]) ++ [line5]) ++ [line6]) ++ [line7]) st7)
    by (deal H6 st6 st7 ix5 ms_consume st6_seen st7_seen (a_evs st6_A) (@nil event_view)).
  assert (H8 : dealings ex_env 10 111 w3 ((((([] ++ ab_E) ++ []) ++ st_cancelled) ++ []) ++ []) ((((ex_B4 ++ asked 10 111 ix5 ms_consume) ++ asked 10 111 (ICancelByCid 23) ms_cancel) ++ asked 10 111 ix5 ms_consume) ++ asked 10 111 ISettleFunds (ms_settle 111 110 112 113 [150])) ((((([] ++ [line4]) ++ [line5]) ++ [line6]) ++ [line7]) ++ [line8]) st8)
    by (deal H7 st7 st8 ISettleFunds (ms_settle 111 110 112 113 [150]) st7_seen st8_seen (@nil event_view) (@nil event_view)).
  deal H8 st8 st9 ICloseOO ms_close st8_seen st9_seen (@nil event_view) (@nil event_view).
Qed.
(** Alice's account over the same order: she places nothing, her resting ask is met. *)
Definition alice_T : list amounts := [] ++ [entry ex_env 10 101 w3 w4 ix4 (ms_order 111 113 110)].
Lemma alice_deal : dealings ex_env 10 101 w3 ([] ++ ab_E) ([] ++ asked 10 101 ix4 (ms_order 111 113 110)) alice_T w4.
Proof. deal (dealings_now ex_env 10 101 w3) w3 w4 ix4 (ms_order 111 113 110) w3_seen ab4_seen (@nil event_view) (a_evs w3_A). Qed.
