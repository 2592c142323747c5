(** Asking for more never gets less (C73).  [terms_of i ms]: the terms of a new order or a send-take; [as_generous a b]:
    [b] asks for as much as [a] or more, at as good a price for the other side or better; [with_order key]: base currency
    traded with the resting order [key] (MoreSpec.v). *)
From Coq Require Import Sorted.
From Verif Require Import Base Fees ListSum Codec Critbit CritbitSlab Market Matching Slots MatchSteps Ledger MatchSpec Core CoreNew Instr InstrProofs Store Process StoreProofs World WorldInv WorldSpec BestSpec MoreSpec MoreProofs WorldExample.

(** Two orders, placed in two states of two histories, on markets with the same lots and the same orders on the other
    side of the book.  (They may be the same state and the same market.)  The second has as generous a limit price, as many lots, as much money, as
    many meetings and no higher fee rate.  Then it trades as much as the first, in all and with every single order of
    the book. *)
Theorem C73_more_gets_no_less : forall e, env_ok e -> forall s k m A L s0 k0 m0 A0 L0, history e s -> no_overflow e s -> seen e s k m A L -> usable m -> history e s0 -> no_overflow e s0 -> seen e s0 k0 m0 A0 L0 -> usable m0 ->
  forall c c2 i i2 ms ms2 s1 s2 T T2, same_side m A m0 A0 (other (tm_side T)) -> process e c s i ms = Ok s1 -> key_at ms 0 = Some k -> wf_instr i -> terms_of i ms = Some T ->
  process e c2 s0 i2 ms2 = Ok s2 -> key_at ms2 0 = Some k0 -> wf_instr i2 -> terms_of i2 ms2 = Some T2 ->
  as_generous T T2 -> same_own T T2 (book_of A (other (tm_side T))) -> no_dearer s k ms s0 k0 ms2 ->
  forall m1 A1 L1 E1 m2 A2 L2 E2, seen e s1 k m1 A1 L1 -> a_evs A1 = a_evs A ++ E1 -> seen e s2 k0 m2 A2 L2 -> a_evs A2 = a_evs A0 ++ E2 ->
  zsum coin_traded E1 <= zsum coin_traded E2 /\ forall key, zsum (with_order key) E1 <= zsum (with_order key) E2.
Proof. exact more_gets_more. Qed.
Print Assumptions C73_more_gets_no_less.
(** On the same terms a limit order, an immediate-or-cancel order and a send-take trade the same amounts with the same
    orders, whoever sends them, on any market and in any state: nothing but the other side of the book matters. *)
Theorem C73_same_terms_same_trades : forall e, env_ok e -> forall s k m A L s0 k0 m0 A0 L0, history e s -> no_overflow e s -> seen e s k m A L -> usable m -> history e s0 -> no_overflow e s0 -> seen e s0 k0 m0 A0 L0 -> usable m0 ->
  forall c c2 i i2 ms ms2 s1 s2 T T2, same_side m A m0 A0 (other (tm_side T)) -> process e c s i ms = Ok s1 -> key_at ms 0 = Some k -> wf_instr i -> terms_of i ms = Some T ->
  process e c2 s0 i2 ms2 = Ok s2 -> key_at ms2 0 = Some k0 -> wf_instr i2 -> terms_of i2 ms2 = Some T2 ->
  as_generous T T2 -> as_generous T2 T -> same_own T T2 (book_of A (other (tm_side T))) -> no_dearer s k ms s0 k0 ms2 -> no_dearer s0 k0 ms2 s k ms ->
  forall m1 A1 L1 E1 m2 A2 L2 E2, seen e s1 k m1 A1 L1 -> a_evs A1 = a_evs A ++ E1 -> seen e s2 k0 m2 A2 L2 -> a_evs A2 = a_evs A0 ++ E2 ->
  zsum coin_traded E1 = zsum coin_traded E2 /\ forall key, zsum (with_order key) E1 = zsum (with_order key) E2.
Proof. exact same_gets_same. Qed.
Print Assumptions C73_same_terms_same_trades.
(** The same signer with the same discount account is never dearer, as long as no tokens have moved. *)
Theorem C73_same_sender : forall s s0 k ms ms', (forall d, token_at s0 d = token_at s d) -> nth_error ms 7 = nth_error ms' 7 -> key_at ms 12 = key_at ms' 12 -> no_dearer s k ms s0 k ms'.
Proof. exact same_sender. Qed.
Print Assumptions C73_same_sender.
(** Whether the crank has run makes no difference to what an order trades. *)
Theorem C73_before_or_after_a_crank : forall e, env_ok e -> forall s k m A L, history e s -> no_overflow e s -> sized s -> seen e s k m A L -> usable m ->
  forall c0 c c2 i0 ms0 q oos n s0 i ms s1 s2 T, crank i0 ms0 k q oos n -> StronglySorted Z.lt oos -> legal e ms0 -> wf_instr i0 -> process e c0 s i0 ms0 = Ok s0 ->
  process e c s i ms = Ok s1 -> process e c2 s0 i ms = Ok s2 -> key_at ms 0 = Some k -> wf_instr i -> terms_of i ms = Some T ->
  forall m1 A1 L1 E1 A0 L0 m2 A2 L2 E2, seen e s1 k m1 A1 L1 -> a_evs A1 = a_evs A ++ E1 -> seen e s0 k m A0 L0 -> seen e s2 k m2 A2 L2 -> a_evs A2 = a_evs A0 ++ E2 ->
  zsum coin_traded E1 = zsum coin_traded E2 /\ forall key, zsum (with_order key) E1 = zsum (with_order key) E2.
Proof. exact crank_no_matter. Qed.
Print Assumptions C73_before_or_after_a_crank.

(** Alice offers 4 lots at 50 and 2 at 60.  Bob, without an account, takes up to 3 lots at 50; or with their account bids
    for 5 lots at 60; or takes 5 lots at 60 without an account. *)
Definition mo_ms := map k_ [10; 11; 12; 13; 14; 112; 113] ++ [s_ 110] ++ map k_ [15; 16; spl_id; 900].
Definition mo_less := ISendTake (mkTakeIx Bid 50 3 500000 1 0 65535).
Definition mo_take := ISendTake (mkTakeIx Bid 60 5 1000000 5 0 65535).
Definition mo_ioc := INewOrderV3 (mkOrderIx Bid 60 5 1000000 DecrementTake ImmediateOrCancel 23 65535 I64_MAX).
Definition mo_s1 : store := Eval vm_compute in transact ex_env ex_clock w3 (pack mo_less) mo_ms.
Definition mo_s2 : store := Eval vm_compute in transact ex_env ex_clock w3 (pack mo_ioc) (ms_order 111 113 110).
Definition mo_s3 : store := Eval vm_compute in transact ex_env ex_clock w3 (pack mo_take) mo_ms.
Definition mo_at (s : store) : market * astate * list (Z * open_orders) := of_look s 10.
Definition mo_new (s : store) : list event_view := skipn (length (a_evs w3_A)) (a_evs (snd (fst (mo_at s)))).
Definition mo_terms (i : instr) (ms : list meta) : terms := match terms_of i ms with Some t => t | None => mkTerms Bid 0 0 0 0 0 AbortTransaction end.
Lemma mo_here s : (look s 10 = Some (mo_at s)) -> distinct_keys s = true -> a_evs (snd (fst (mo_at s))) = a_evs w3_A ++ mo_new s ->
  seen ex_env s 10 (fst (fst (mo_at s))) (snd (fst (mo_at s))) (snd (mo_at s)) /\ a_evs (snd (fst (mo_at s))) = a_evs w3_A ++ mo_new s.
Proof. intros H D E. split; [apply look_seen; [destruct (mo_at s) as [[? ?] ?]; exact H|exact D]|exact E]. Qed.
Example C73_case : env_ok ex_env /\ history ex_env w3 /\ no_overflow ex_env w3 /\ seen ex_env w3 10 w3_m w3_A w3_L /\ usable w3_m /\
  process ex_env ex_clock w3 mo_less mo_ms = Ok mo_s1 /\ process ex_env ex_clock w3 mo_ioc (ms_order 111 113 110) = Ok mo_s2 /\ process ex_env ex_clock w3 mo_take mo_ms = Ok mo_s3 /\
  wf_instr mo_less /\ wf_instr mo_ioc /\ wf_instr mo_take /\ key_at mo_ms 0 = Some 10 /\ key_at (ms_order 111 113 110) 0 = Some 10.
Proof.
  split; [exact ex_env_ok|]. split; [exact w3_h|]. split; [apply guard_ok; vm_compute; reflexivity|]. split; [exact w3_seen|]. split; [exact w3_usable|].
  split; [vm_compute; reflexivity|]. split; [vm_compute; reflexivity|]. split; [vm_compute; reflexivity|].
  split; [cbn; unfold wf_take, nz64, u64, u16; cbn; lia|]. split; [cbn; unfold wf_v3, nz64, u64, u16, I64_MAX; cbn; lia|]. split; [cbn; unfold wf_take, nz64, u64, u16; cbn; lia|]. split; vm_compute; reflexivity.
Qed.
Example C73_case_terms : terms_of mo_less mo_ms = Some (mo_terms mo_less mo_ms) /\ terms_of mo_ioc (ms_order 111 113 110) = Some (mo_terms mo_ioc (ms_order 111 113 110)) /\ terms_of mo_take mo_ms = Some (mo_terms mo_take mo_ms) /\
  as_generous (mo_terms mo_less mo_ms) (mo_terms mo_ioc (ms_order 111 113 110)) /\ as_generous (mo_terms mo_ioc (ms_order 111 113 110)) (mo_terms mo_take mo_ms) /\ as_generous (mo_terms mo_take mo_ms) (mo_terms mo_ioc (ms_order 111 113 110)) /\
  same_own (mo_terms mo_less mo_ms) (mo_terms mo_ioc (ms_order 111 113 110)) (a_asks w3_A) /\ same_own (mo_terms mo_ioc (ms_order 111 113 110)) (mo_terms mo_take mo_ms) (a_asks w3_A) /\
  no_dearer w3 10 mo_ms w3 10 (ms_order 111 113 110) /\ no_dearer w3 10 (ms_order 111 113 110) w3 10 mo_ms.
Proof.
  split; [vm_compute; reflexivity|]. split; [vm_compute; reflexivity|]. split; [vm_compute; reflexivity|].
  do 3 (split; [vm_compute; repeat split; congruence|]).
  do 2 (split; [intros l I; destruct I as [<-|[<-|[]]]; (split; [vm_compute; split; congruence|vm_compute; congruence])|]).
  split; apply C73_same_sender; try reflexivity; vm_compute; reflexivity.
Qed.
(** Three lots, five and five; four at most with the order at 50. *)
Example C73_case_traded :
  (seen ex_env mo_s1 10 (fst (fst (mo_at mo_s1))) (snd (fst (mo_at mo_s1))) (snd (mo_at mo_s1)) /\ a_evs (snd (fst (mo_at mo_s1))) = a_evs w3_A ++ mo_new mo_s1) /\
  (seen ex_env mo_s2 10 (fst (fst (mo_at mo_s2))) (snd (fst (mo_at mo_s2))) (snd (mo_at mo_s2)) /\ a_evs (snd (fst (mo_at mo_s2))) = a_evs w3_A ++ mo_new mo_s2) /\
  (seen ex_env mo_s3 10 (fst (fst (mo_at mo_s3))) (snd (fst (mo_at mo_s3))) (snd (mo_at mo_s3)) /\ a_evs (snd (fst (mo_at mo_s3))) = a_evs w3_A ++ mo_new mo_s3) /\
  map (fun s => zsum coin_traded (mo_new s)) [mo_s1; mo_s2; mo_s3] = [3 * m_coin_lot w3_m; 5 * m_coin_lot w3_m; 5 * m_coin_lot w3_m] /\
  map (fun s => map (fun l => zsum (with_order (l_key l)) (mo_new s) / m_coin_lot w3_m) (a_asks w3_A)) [mo_s1; mo_s2; mo_s3] = [[3; 0]; [4; 1]; [4; 1]].
Proof.
  split; [apply mo_here; vm_compute; reflexivity|]. split; [apply mo_here; vm_compute; reflexivity|]. split; [apply mo_here; vm_compute; reflexivity|]. split; vm_compute; reflexivity.
Qed.
(** Four lots traded at 50; another is taken at 60, before or after the events of the trade are consumed. *)
Definition mo_one := ISendTake (mkTakeIx Bid 60 1 1000000 1 0 65535).
Definition mo_s4 : store := Eval vm_compute in transact ex_env ex_clock w4 (pack mo_one) mo_ms.
Definition mo_s5 : store := Eval vm_compute in transact ex_env ex_clock w5 (pack mo_one) mo_ms.
Definition mo_E (s : store) (A : astate) : list event_view := skipn (length (a_evs A)) (a_evs (snd (fst (mo_at s)))).
Example C73_case_crank : history ex_env w4 /\ no_overflow ex_env w4 /\ sized w4 /\ seen ex_env w4 10 w4_m w4_A w4_L /\ usable w4_m /\
  crank ix5 ms_consume 10 12 [101; 111] 10 /\ StronglySorted Z.lt [101; 111] /\ legal ex_env ms_consume /\ wf_instr ix5 /\ process ex_env ex_clock w4 ix5 ms_consume = Ok w5 /\
  process ex_env ex_clock w4 mo_one mo_ms = Ok mo_s4 /\ process ex_env ex_clock w5 mo_one mo_ms = Ok mo_s5 /\ wf_instr mo_one /\
  look mo_s4 10 = Some (mo_at mo_s4) /\ a_evs (snd (fst (mo_at mo_s4))) = a_evs w4_A ++ mo_E mo_s4 w4_A /\ seen ex_env w5 10 w4_m w5_A w5_L /\
  look mo_s5 10 = Some (mo_at mo_s5) /\ a_evs (snd (fst (mo_at mo_s5))) = a_evs w5_A ++ mo_E mo_s5 w5_A /\ a_evs w4_A <> [] /\ a_evs w5_A = [] /\
  zsum coin_traded (mo_E mo_s4 w4_A) = m_coin_lot w4_m /\ zsum coin_traded (mo_E mo_s5 w5_A) = m_coin_lot w4_m.
Proof.
  split; [exact w4_h|]. split; [apply guard_ok; vm_compute; reflexivity|]. split; [apply sized_ok; vm_compute; reflexivity|]. split; [exact w4_seen|]. split; [exact w4_usable|].
  split; [split; [discriminate|]; split; [lia|]; left; split; [reflexivity|exists 0, 0; reflexivity]|]. split; [repeat constructor|]. split; [apply legal_ok; vm_compute; reflexivity|]. split; [cbn; unfold u16; lia|].
  split; [vm_compute; reflexivity|]. split; [vm_compute; reflexivity|]. split; [vm_compute; reflexivity|]. split; [cbn; unfold wf_take, nz64, u64, u16; cbn; lia|].
  split; [vm_compute; reflexivity|]. split; [vm_compute; reflexivity|]. split; [exact w5_seen|]. split; [vm_compute; reflexivity|]. split; [vm_compute; reflexivity|]. split; [discriminate|]. split; [reflexivity|]. split; vm_compute; reflexivity.
Qed.
