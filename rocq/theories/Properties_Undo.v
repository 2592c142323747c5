(** C81.  Changing one's mind is free: an order that met nothing and pushed nothing off the book is undone by cancelling it. *)
From Verif Require Import Base Fees ListSum Codec Critbit CritbitSlab Market Matching Slots MatchSteps Ledger MatchSpec Core Instr InstrProofs Store Process StoreProofs World WorldInv WorldSpec WorldMain PlaceSpec UndoProofs WorldExample ExampleAuth ExampleAbsent.

(** An order of account [x] rests as [l] and every order that was there before still is, as it was.  When it is cancelled,
    both books are as they were, the fees are, and the account differs from before by exactly the money put in, all of it free.
    Nobody else's account or tokens have changed. *)
Theorem C81_taking_an_order_back_undoes_it : forall e, env_ok e -> forall s k m A L, history e s -> no_overflow e s -> sized s -> seen e s k m A L -> usable m ->
  forall c ix ms s1, legal e ms -> wf_instr (INewOrderV3 ix) -> process e c s (INewOrderV3 ix) ms = Ok s1 -> key_at ms 0 = Some k ->
  forall m1 A1 L1 l, seen e s1 k m1 A1 L1 -> (forall sd y, In y (book_of A sd) -> In y (book_of A1 sd)) -> In l (book_of A1 (oi_side ix)) -> ~ In l (book_of A (oi_side ix)) ->
  forall c2 ms2 s2, process e c2 s1 (ICancelV2 (oi_side ix) (l_key l)) ms2 = Ok s2 -> key_at ms2 0 = Some k ->
  forall m2 A2 L2, seen e s2 k m2 A2 L2 ->
  exists x payer dep oo oo2, key_at ms 1 = Some x /\ key_at ms2 3 = Some x /\ key_at ms 6 = Some payer /\
    (In (x, oo) L \/ (dexd e s x = Some DZero /\ blank_for k (oo_owner oo) oo)) /\
    dep = (match oi_side ix with Bid => Z.max 0 (oi_pc ix - oo_pc_free oo) | Ask => Z.max 0 (oi_qty ix * m_coin_lot m - oo_coin_free oo) end) /\
    moves s s2 [(payer, pays_into m (oi_side ix), dep)] /\
    (forall sd, book_of A2 sd = book_of A sd) /\
    (forall y oy, In (y, oy) L2 <-> (y = x /\ oy = oo2) \/ (y <> x /\ In (y, oy) L)) /\
    match oi_side ix with
    | Bid => changed_by oo oo2 0 0 dep dep 0 /\ m2 = set_counters m (m_coin_deposits m) (m_pc_deposits m + dep) (m_pc_fees m) (m_rebates m)
    | Ask => changed_by oo oo2 dep dep 0 0 0 /\ m2 = set_counters m (m_coin_deposits m + dep) (m_pc_deposits m) (m_pc_fees m) (m_rebates m)
    end.
Proof. exact taking_back. Qed.
Print Assumptions C81_taking_an_order_back_undoes_it.

(** Alice offers 4 lots at 50 and 2 at 60.  Bob, who has no account yet, puts in 100000, bids for 2 lots at 40 and takes the bid back. *)
Definition un_ix : order_ix := mkOrderIx Bid 40 2 100000 DecrementTake Limit 77 65535 I64_MAX.
Definition un_1 : store := Eval vm_compute in transact ex_env ex_clock w3 (pack (INewOrderV3 un_ix)) (ms_order 111 113 110).
Definition un_1m : market := Eval vm_compute in fst (fst (of_look un_1 10)).
Definition un_1A : astate := Eval vm_compute in snd (fst (of_look un_1 10)).
Definition un_1L : list (Z * open_orders) := Eval vm_compute in snd (of_look un_1 10).
Definition un_l : leaf := Eval vm_compute in nth 0 (a_bids un_1A) (mkLeaf 0 0 0 0 0 0).
Definition un_ms : list meta := map k_ [10; 13; 14; 111] ++ [s_ 110; k_ 12].
Definition un_2 : store := Eval vm_compute in transact ex_env ex_clock un_1 (pack (ICancelV2 Bid (l_key un_l))) un_ms.
Definition un_2m : market := Eval vm_compute in fst (fst (of_look un_2 10)).
Definition un_2A : astate := Eval vm_compute in snd (fst (of_look un_2 10)).
Definition un_2L : list (Z * open_orders) := Eval vm_compute in snd (of_look un_2 10).
Example C81_case : history ex_env w3 /\ no_overflow ex_env w3 /\ sized w3 /\ seen ex_env w3 10 w3_m w3_A w3_L /\ usable w3_m /\ legal ex_env (ms_order 111 113 110) /\ wf_instr (INewOrderV3 un_ix) /\
  process ex_env ex_clock w3 (INewOrderV3 un_ix) (ms_order 111 113 110) = Ok un_1 /\ seen ex_env un_1 10 un_1m un_1A un_1L /\
  (forall sd y, In y (book_of w3_A sd) -> In y (book_of un_1A sd)) /\ In un_l (book_of un_1A Bid) /\ ~ In un_l (book_of w3_A Bid) /\
  process ex_env ex_clock un_1 (ICancelV2 Bid (l_key un_l)) un_ms = Ok un_2 /\ seen ex_env un_2 10 un_2m un_2A un_2L /\ l_qty un_l = 2 /\
  (exists oo2, In (111, oo2) un_2L /\ oo_pc_free oo2 = 100000 /\ oo_pc_total oo2 = 100000).
Proof.
  split; [exact w3_h|]. split; [apply guard_ok; vm_compute; reflexivity|]. split; [apply sized_ok; vm_compute; reflexivity|]. split; [exact w3_seen|]. split; [exact w3_usable|]. split; [apply legal_ok; vm_compute; reflexivity|].
  split; [vm_compute; repeat split; discriminate|]. split; [vm_compute; reflexivity|]. split; [apply look_seen; vm_compute; reflexivity|].
  split. { intros sd y I. destruct sd; vm_compute in I |- *; tauto. }
  split; [vm_compute; auto|]. split; [vm_compute; intuition discriminate|]. split; [vm_compute; reflexivity|]. split; [apply look_seen; vm_compute; reflexivity|]. split; [reflexivity|].
  eexists. split; [vm_compute; right; left; reflexivity|]. split; reflexivity.
Qed.
