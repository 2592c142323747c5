(** Somebody trades back and forth against orders of an absent trader (C77). *)
From Verif Require Import Base Fees ListSum Codec Critbit CritbitSlab Market Matching Slots MatchSteps Ledger MatchSpec Core Instr InstrProofs Store Process StoreProofs World WorldSpec LifeSpec AbsentSpec StatementSpec IncomeSpec NoGainSpec WorldExample ExampleAuth ExampleAbsent ExampleIncome.

(** Alice sells 4 lots at 50 and 2 at 60 and also buys 3 lots at 45; then she is away.  Somebody without an account
    buys a lot and sells it again. *)
Definition ng_bid : instr := INewOrderV3 (mkOrderIx Bid 45 3 1000000 DecrementTake Limit 31 65535 I64_MAX).
Definition ng_buy : instr := ISendTake (mkTakeIx Bid 50 1 70000 1 0 10).
Definition ng_sell : instr := ISendTake (mkTakeIx Ask 45 1 1000000 1 0 10).
Definition ng0 : store := Eval vm_compute in transact ex_env ex_clock w3 (pack ng_bid) (ms_order 101 103 100).
Definition ng1 : store := Eval vm_compute in transact ex_env ex_clock ng0 (pack ng_buy) ms_in_take.
Definition ng2 : store := Eval vm_compute in transact ex_env ex_clock ng1 (pack ng_sell) ms_in_take.
Lemma ng0_h : history ex_env ng0. Proof. next w3_h w3 (pack ng_bid) (ms_order 101 103 100). Qed.
Definition ng0_m : market := Eval vm_compute in fst (fst (of_look ng0 10)).
Definition ng0_A : astate := Eval vm_compute in snd (fst (of_look ng0 10)).
Definition ng0_L : list (Z * open_orders) := Eval vm_compute in snd (of_look ng0 10).
Lemma ng0_seen : seen ex_env ng0 10 ng0_m ng0_A ng0_L.
Proof. apply look_seen; vm_compute; reflexivity. Qed.
Definition ng1_m : market := Eval vm_compute in fst (fst (of_look ng1 10)).
Definition ng1_A : astate := Eval vm_compute in snd (fst (of_look ng1 10)).
Definition ng1_L : list (Z * open_orders) := Eval vm_compute in snd (of_look ng1 10).
Lemma ng1_seen : seen ex_env ng1 10 ng1_m ng1_A ng1_L.
Proof. apply look_seen; vm_compute; reflexivity. Qed.
Definition ng2_m : market := Eval vm_compute in fst (fst (of_look ng2 10)).
Definition ng2_A : astate := Eval vm_compute in snd (fst (of_look ng2 10)).
Definition ng2_L : list (Z * open_orders) := Eval vm_compute in snd (of_look ng2 10).
Lemma ng2_seen : seen ex_env ng2 10 ng2_m ng2_A ng2_L.
Proof. apply look_seen; vm_compute; reflexivity. Qed.
Ltac dline H old new i ms sn sn' used kept :=
  eapply (dealt_tx ex_env 10 (fun w => w = 100) ng0 _ _ old ex_clock (pack i) ms i new);
  [exact H|apply guard_ok; vm_compute; reflexivity|apply sized_ok; vm_compute; reflexivity|apply bytes_ok; vm_compute; reflexivity|apply legal_ok; vm_compute; reflexivity
  |intros w -> (a & I & K & S0); vm_compute in I; decompose [or] I; subst; try discriminate; contradiction|vm_compute; reflexivity|apply others_ok; vm_compute; reflexivity|vm_compute; reflexivity|];
  do 6 eexists; exists used, kept; split; [exact sn|]; split; [exact sn'|]; split; [vm_compute; reflexivity|]; split; [vm_compute; reflexivity|auto].
Definition ng_bought : list event_view := Eval vm_compute in skipn (length (a_evs ng0_A)) (a_evs ng1_A).
Definition ng_sold : list event_view := Eval vm_compute in skipn (length (a_evs ng1_A)) (a_evs ng2_A).
Definition ng_l1 := line ex_env 10 ng0 ng1 ng_buy ms_in_take.
Definition ng_l2 := line ex_env 10 ng1 ng2 ng_sell ms_in_take.
Lemma ng1_dealt : dealt ex_env 10 (fun w => w = 100) ng0 ([] ++ ng_bought) ([] ++ [ng_l1]) ng1.
Proof. dline (dealt_now ex_env 10 (fun w => w = 100) ng0) ng0 ng1 ng_buy ms_in_take ng0_seen ng1_seen (@nil event_view) (a_evs ng0_A). Qed.
Definition ng_E : list event_view := ([] ++ ng_bought) ++ ng_sold.
Definition ng_T : list dealing := ([] ++ [ng_l1]) ++ [ng_l2].
Lemma ng2_dealt : dealt ex_env 10 (fun w => w = 100) ng0 ng_E ng_T ng2.
Proof. dline ng1_dealt ng1 ng2 ng_sell ms_in_take ng1_seen ng2_seen (@nil event_view) (a_evs ng1_A). Qed.
