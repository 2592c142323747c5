(** C83.  An immediate-or-cancel order and the settlement after it are a swap, and the same swap as a send-take.  [swapped]:
    what the two instructions do together; [same_ask]: same side, price, lots, money and meetings; [told y E]: the events
    about account [y], their fee tiers aside (SwapSpec.v). *)
From Verif Require Import Base Fees ListSum Codec Critbit CritbitSlab Market Matching Slots MatchSteps Ledger MatchSpec Core CoreNew Instr InstrProofs Store Process StoreProofs World WorldInv WorldSpec WorldMain SwapSpec SwapProofs WorldExample.

(** The trader pays exactly what the order traded for, gets exactly what it bought and whatever was free in the account,
    and nothing of the order stays: not on the book, not in the account. *)
Theorem C83_order_and_settlement : forall e, env_ok e -> forall s k m A L, history e s -> no_overflow e s -> sized s -> seen e s k m A L -> usable m ->
  forall c ix ms s1, legal e ms -> wf_instr (INewOrderV3 ix) -> oi_ot ix = ImmediateOrCancel -> process e c s (INewOrderV3 ix) ms = Ok s1 -> key_at ms 0 = Some k ->
  forall c2 ms2 s2, process e c2 s1 ISettleFunds ms2 = Ok s2 -> key_at ms2 0 = Some k -> key_at ms2 1 = key_at ms 1 ->
  exists x w t payer oo cw pw, key_at ms 1 = Some x /\ signs ms 7 w /\ signs ms2 2 w /\ key_at ms 6 = Some payer /\ oo_owner oo = w /\ tier_for s k w (key_at ms 12) t /\
    (In (x, oo) L \/ (dexd e s x = Some DZero /\ blank_for k w oo)) /\ key_at ms2 5 = Some cw /\ key_at ms2 6 = Some pw /\
    swapped e s s2 k m A L ix t x payer oo cw pw (key_at ms2 9).
Proof. exact swap_settled. Qed.
Print Assumptions C83_order_and_settlement.
(** With nothing free in the account and no own order on the other side of the book, a send-take on the same terms would
    have left every token account with the same amount, the same market with the same counters, the same books, the same
    accounts of everybody else and the same events about them. *)
Theorem C83_same_as_a_take : forall e, env_ok e -> forall s k m A L, history e s -> no_overflow e s -> sized s -> seen e s k m A L -> usable m ->
  forall c ix ms s1, legal e ms -> wf_instr (INewOrderV3 ix) -> oi_ot ix = ImmediateOrCancel -> process e c s (INewOrderV3 ix) ms = Ok s1 -> key_at ms 0 = Some k ->
  forall c2 ms2 s2, process e c2 s1 ISettleFunds ms2 = Ok s2 -> key_at ms2 0 = Some k -> key_at ms2 1 = key_at ms 1 ->
  forall c3 tx ms3 s3, wf_instr (ISendTake tx) -> process e c3 s (ISendTake tx) ms3 = Ok s3 -> key_at ms3 0 = Some k ->
  forall x, key_at ms 1 = Some x -> (forall oo, In (x, oo) L -> idle oo) -> (forall l, In l (book_of A (other (oi_side ix))) -> l_owner l <> x) -> same_ask tx ix ->
  nth_error ms3 7 = nth_error ms 7 -> key_at ms3 12 = key_at ms 12 -> key_at ms3 5 = key_at ms2 5 -> key_at ms3 6 = key_at ms2 6 ->
  key_at ms 6 = key_at ms3 (match oi_side ix with Bid => 6 | Ask => 5 end)%nat ->
  forall m2 A2 L2 m3 A3 L3, seen e s2 k m2 A2 L2 -> seen e s3 k m3 A3 L3 ->
  (forall v, match token_at s2 v, token_at s3 v with
             | Some a, Some b => t_amount a = t_amount b /\ t_mint a = t_mint b /\ t_owner a = t_owner b
             | None, None => True
             | _, _ => False
             end) /\
  m2 = m3 /\ (forall sd, book_of A2 sd = book_of A3 sd) /\ (forall y, y <> x -> told y (a_evs A2) = told y (a_evs A3)) /\
  (forall y oy, y <> x -> (In (y, oy) L2 <-> In (y, oy) L3)).
Proof. exact swap_is_take. Qed.
Print Assumptions C83_same_as_a_take.

(** Alice offers 4 lots at 50 and 2 at 60.  Bob buys 5 lots at up to 60: with an order and a settlement, or by a take. *)
Definition sw_ix : order_ix := mkOrderIx Bid 60 5 1000000 DecrementTake ImmediateOrCancel 23 65535 I64_MAX.
Definition sw_tx : take_ix := mkTakeIx Bid 60 5 1000000 5 0 65535.
Definition sw_ms : list meta := ms_order 111 113 110.
Definition sw_ms2 : list meta := ms_settle 111 110 112 113 [150].
Definition sw_ms3 : list meta := map k_ [10; 11; 12; 13; 14; 112; 113] ++ [s_ 110] ++ map k_ [15; 16; spl_id; 900].
Definition sw_1 : store := Eval vm_compute in transact ex_env ex_clock w3 (pack (INewOrderV3 sw_ix)) sw_ms.
Definition sw_2 : store := Eval vm_compute in transact ex_env ex_clock sw_1 (pack ISettleFunds) sw_ms2.
Definition sw_3 : store := Eval vm_compute in transact ex_env ex_clock w3 (pack (ISendTake sw_tx)) sw_ms3.
Definition sw_at (s : store) : market * astate * list (Z * open_orders) := of_look s 10.
Example C83_case : history ex_env w3 /\ no_overflow ex_env w3 /\ sized w3 /\ seen ex_env w3 10 w3_m w3_A w3_L /\ usable w3_m /\
  legal ex_env sw_ms /\ wf_instr (INewOrderV3 sw_ix) /\ process ex_env ex_clock w3 (INewOrderV3 sw_ix) sw_ms = Ok sw_1 /\ key_at sw_ms 0 = Some 10 /\
  process ex_env ex_clock sw_1 ISettleFunds sw_ms2 = Ok sw_2 /\ key_at sw_ms2 0 = Some 10 /\ key_at sw_ms2 1 = key_at sw_ms 1 /\
  wf_instr (ISendTake sw_tx) /\ process ex_env ex_clock w3 (ISendTake sw_tx) sw_ms3 = Ok sw_3 /\ key_at sw_ms3 0 = Some 10 /\ key_at sw_ms 1 = Some 111 /\
  (forall oo, In (111, oo) w3_L -> idle oo) /\ (forall l, In l (book_of w3_A Ask) -> l_owner l <> 111) /\ same_ask sw_tx sw_ix /\
  nth_error sw_ms3 7 = nth_error sw_ms 7 /\ key_at sw_ms3 12 = key_at sw_ms 12 /\ key_at sw_ms3 5 = key_at sw_ms2 5 /\ key_at sw_ms3 6 = key_at sw_ms2 6 /\ key_at sw_ms 6 = key_at sw_ms3 6 /\
  seen ex_env sw_2 10 (fst (fst (sw_at sw_2))) (snd (fst (sw_at sw_2))) (snd (sw_at sw_2)) /\ seen ex_env sw_3 10 (fst (fst (sw_at sw_3))) (snd (fst (sw_at sw_3))) (snd (sw_at sw_3)).
Proof.
  split; [exact w3_h|]. split; [apply guard_ok; vm_compute; reflexivity|]. split; [apply sized_ok; vm_compute; reflexivity|]. split; [exact w3_seen|]. split; [exact w3_usable|]. split; [apply legal_ok; vm_compute; reflexivity|].
  split; [vm_compute; repeat split; discriminate|]. split; [vm_compute; reflexivity|]. split; [reflexivity|]. split; [vm_compute; reflexivity|]. split; [reflexivity|]. split; [reflexivity|].
  split; [vm_compute; repeat split; discriminate|]. split; [vm_compute; reflexivity|]. split; [reflexivity|]. split; [reflexivity|].
  split; [intros oo I; exfalso; vm_compute in I; intuition discriminate|]. split; [intros l I; vm_compute in I; intuition (subst; discriminate)|]. split; [vm_compute; repeat split|].
  do 5 (split; [reflexivity|]). split; apply look_seen; vm_compute; reflexivity.
Qed.
(** Bob has 5 lots of 10 more either way, has paid the same, and the book is the same. *)
Definition sw_has (s : store) (v : Z) : Z := match token_at s v with Some t => t_amount t | None => -1 end.
Example C83_case_amounts : sw_has sw_2 112 = sw_has w3 112 + 50 /\ sw_has sw_3 112 = sw_has w3 112 + 50 /\ sw_has sw_2 113 = sw_has sw_3 113 /\ sw_has sw_2 113 < sw_has w3 113 /\
  a_asks (snd (fst (sw_at sw_2))) = a_asks (snd (fst (sw_at sw_3))) /\ a_asks (snd (fst (sw_at sw_2))) <> a_asks w3_A /\ a_evs (snd (fst (sw_at sw_2))) <> a_evs (snd (fst (sw_at sw_3))).
Proof. vm_compute. repeat split; congruence. Qed.
