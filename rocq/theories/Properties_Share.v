(** Each resting order gets its share (C76): price and time priority as a formula, in every state of every history.
    [share], [in_reach] and [unhindered] are defined in ShareSpec.v, [terms_of], [with_order] and [same_side] in MoreSpec.v,
    [coin_traded] and [pc_traded] in BestSpec.v. *)
From Verif Require Import Base Fees ListSum Codec Critbit CritbitSlab Market Matching Slots MatchSteps Ledger MatchSpec Core CoreNew Instr InstrProofs Store Process StoreProofs World WorldInv WorldSpec BestSpec PlaceSpec MoreSpec ExitSpec ShareSpec ShareProofs WorldExample.

(** The number of lots an order trades decides everything else about its trades: with which resting orders, how much with each,
    and for how much money.  Whatever the order type, the way of dealing with own orders, the fees or the money. *)
Theorem C76_each_gets_its_share : forall e, env_ok e -> forall s k m A L, history e s -> no_overflow e s -> seen e s k m A L -> usable m ->
  forall c i ms s' T, process e c s i ms = Ok s' -> key_at ms 0 = Some k -> wf_instr i -> terms_of i ms = Some T ->
  forall m' A' L' E, seen e s' k m' A' L' -> a_evs A' = a_evs A ++ E ->
  let bk := book_of A (other (tm_side T)) in
  exists lots, 0 <= lots /\ zsum coin_traded E = m_coin_lot m * lots /\ lots = zsum (share (tm_side T) (tm_account T) bk lots) bk /\
    (forall l, In l bk -> zsum (with_order (l_key l)) E = m_coin_lot m * share (tm_side T) (tm_account T) bk lots l) /\
    (forall key, (forall l, In l bk -> l_key l <> key) -> zsum (with_order key) E = 0) /\
    zsum pc_traded E = m_pc_lot m * zsum (fun l => l_price l * share (tm_side T) (tm_account T) bk lots l) bk.
Proof. exact share_of_each. Qed.
Print Assumptions C76_each_gets_its_share.

(** And the number of lots, if only its quantity and its limit hold the order back: what it asks for, or all there is within the limit. *)
Theorem C76_in_full : forall e, env_ok e -> forall s k m A L, history e s -> no_overflow e s -> seen e s k m A L -> usable m ->
  forall c i ms s' T, process e c s i ms = Ok s' -> key_at ms 0 = Some k -> wf_instr i -> terms_of i ms = Some T ->
  forall w t, signs ms 7 w -> tier_for s k w (key_at ms 12) t -> unhindered (m_pc_lot m) t T (book_of A (other (tm_side T))) ->
  forall m' A' L' E, seen e s' k m' A' L' -> a_evs A' = a_evs A ++ E ->
  zsum coin_traded E = m_coin_lot m * Z.min (tm_lots T) (zsum l_qty (in_reach T (book_of A (other (tm_side T))))).
Proof. exact in_full. Qed.
Print Assumptions C76_in_full.

(** Splitting an order gains nothing and loses nothing: the second part is placed at any time at which the other side
    of the book is as the first part left it, on the same market or one like it.  If both trade as much as one order in their
    place, they trade with the same orders, as much with each, for the same money. *)
Theorem C76_in_parts : forall e, env_ok e -> forall s k m A L, history e s -> no_overflow e s -> seen e s k m A L -> usable m ->
  forall c1 i1 ms1 s1 T1, process e c1 s i1 ms1 = Ok s1 -> key_at ms1 0 = Some k -> wf_instr i1 -> terms_of i1 ms1 = Some T1 ->
  forall m1 A1 L1 E1, seen e s1 k m1 A1 L1 -> a_evs A1 = a_evs A ++ E1 ->
  forall sb k2 m2 A2 L2, history e sb -> no_overflow e sb -> seen e sb k2 m2 A2 L2 -> usable m2 -> same_side m A1 m2 A2 (other (tm_side T1)) ->
  forall c2 i2 ms2 s2 T2, process e c2 sb i2 ms2 = Ok s2 -> key_at ms2 0 = Some k2 -> wf_instr i2 -> terms_of i2 ms2 = Some T2 ->
  forall m2' A2' L2' E2, seen e s2 k2 m2' A2' L2' -> a_evs A2' = a_evs A2 ++ E2 ->
  forall c3 i3 ms3 s3 T3, process e c3 s i3 ms3 = Ok s3 -> key_at ms3 0 = Some k -> wf_instr i3 -> terms_of i3 ms3 = Some T3 ->
  forall m3 A3 L3 E3, seen e s3 k m3 A3 L3 -> a_evs A3 = a_evs A ++ E3 ->
  tm_side T2 = tm_side T1 -> tm_side T3 = tm_side T1 -> tm_account T2 = tm_account T1 -> tm_account T3 = tm_account T1 ->
  zsum coin_traded E1 + zsum coin_traded E2 = zsum coin_traded E3 ->
  zsum pc_traded E1 + zsum pc_traded E2 = zsum pc_traded E3 /\ forall key, zsum (with_order key) E1 + zsum (with_order key) E2 = zsum (with_order key) E3.
Proof. exact in_parts. Qed.
Print Assumptions C76_in_parts.

(** Alice offers 4 lots at 50 and 2 at 60.  Bob bids for 5 lots at 60, with enough money: 4 are from the first order, 1 from the second. *)
Definition sh_ms := ms_order 111 113 110.
Definition sh_one := INewOrderV3 (mkOrderIx Bid 60 5 1000000 DecrementTake ImmediateOrCancel 23 65535 I64_MAX).
Definition sh_T := mkTerms Bid 60 5 1000000 65535 111 DecrementTake.
Definition sh_s : store := Eval vm_compute in transact ex_env ex_clock w3 (pack sh_one) sh_ms.
Definition sh_at (s : store) : market * astate * list (Z * open_orders) := of_look s 10.
Definition sh_A (s : store) : astate := snd (fst (sh_at s)).
Definition sh_new (s : store) (A : astate) : list event_view := skipn (length (a_evs A)) (a_evs (sh_A s)).
Example C76_case : env_ok ex_env /\ history ex_env w3 /\ no_overflow ex_env w3 /\ seen ex_env w3 10 w3_m w3_A w3_L /\ usable w3_m /\
  process ex_env ex_clock w3 sh_one sh_ms = Ok sh_s /\ key_at sh_ms 0 = Some 10 /\ wf_instr sh_one /\ terms_of sh_one sh_ms = Some sh_T /\
  seen ex_env sh_s 10 (fst (fst (sh_at sh_s))) (sh_A sh_s) (snd (sh_at sh_s)) /\ a_evs (sh_A sh_s) = a_evs w3_A ++ sh_new sh_s w3_A /\
  signs sh_ms 7 110 /\ tier_for w3 10 110 (key_at sh_ms 12) TBase /\ unhindered (m_pc_lot w3_m) TBase sh_T (a_asks w3_A) /\
  map (share Bid 111 (a_asks w3_A) 5) (a_asks w3_A) = [4; 1] /\ zsum coin_traded (sh_new sh_s w3_A) = 5 * m_coin_lot w3_m /\ zsum l_qty (in_reach sh_T (a_asks w3_A)) = 6.
Proof.
  split; [exact ex_env_ok|]. split; [exact w3_h|]. split; [apply guard_ok; vm_compute; reflexivity|]. split; [exact w3_seen|]. split; [exact w3_usable|].
  split; [vm_compute; reflexivity|]. split; [vm_compute; reflexivity|]. split; [cbn; unfold wf_v3, nz64, u64, u16, I64_MAX; cbn; lia|]. split; [vm_compute; reflexivity|].
  split; [apply look_seen; [vm_compute; reflexivity|vm_compute; reflexivity]|]. split; [vm_compute; reflexivity|].
  split; [vm_compute; reflexivity|]. split; [vm_compute; reflexivity|].
  split. { split; [|split; [vm_compute; discriminate|intros _; vm_compute; discriminate]]. intros l I. destruct I as [<-|[<-|[]]]; vm_compute; discriminate. }
  split; [vm_compute; reflexivity|]. split; vm_compute; reflexivity.
Qed.
(** Or Bob bids for 4 lots at 50 first, and for 1 lot at 60 after that. *)
Definition sh_two := INewOrderV3 (mkOrderIx Bid 60 1 1000000 DecrementTake ImmediateOrCancel 24 65535 I64_MAX).
Definition sh_s2 : store := Eval vm_compute in transact ex_env ex_clock w4 (pack sh_two) sh_ms.
Example C76_case_parts : process ex_env ex_clock w3 ix4 sh_ms = Ok w4 /\ wf_instr ix4 /\ seen ex_env w4 10 w4_m w4_A w4_L /\ a_evs w4_A = a_evs w3_A ++ a_evs w4_A /\
  history ex_env w4 /\ no_overflow ex_env w4 /\ usable w4_m /\ same_side w3_m w4_A w4_m w4_A Ask /\ process ex_env ex_clock w4 sh_two sh_ms = Ok sh_s2 /\ wf_instr sh_two /\
  seen ex_env sh_s2 10 (fst (fst (sh_at sh_s2))) (sh_A sh_s2) (snd (sh_at sh_s2)) /\ a_evs (sh_A sh_s2) = a_evs w4_A ++ sh_new sh_s2 w4_A /\
  option_map (fun T => (tm_side T, tm_account T)) (terms_of ix4 sh_ms) = Some (Bid, 111) /\ option_map (fun T => (tm_side T, tm_account T)) (terms_of sh_two sh_ms) = Some (Bid, 111) /\
  zsum coin_traded (a_evs w4_A) = 4 * m_coin_lot w3_m /\ zsum coin_traded (sh_new sh_s2 w4_A) = m_coin_lot w3_m.
Proof.
  split; [vm_compute; reflexivity|]. split; [cbn; unfold wf_v3, nz64, u64, u16, I64_MAX; cbn; lia|]. split; [exact w4_seen|]. split; [vm_compute; reflexivity|].
  split; [exact w4_h|]. split; [apply guard_ok; vm_compute; reflexivity|]. split; [exact w4_usable|]. split; [repeat split|]. split; [vm_compute; reflexivity|]. split; [cbn; unfold wf_v3, nz64, u64, u16, I64_MAX; cbn; lia|].
  split; [apply look_seen; [vm_compute; reflexivity|vm_compute; reflexivity]|]. split; [vm_compute; reflexivity|]. split; [vm_compute; reflexivity|]. split; [vm_compute; reflexivity|]. split; vm_compute; reflexivity.
Qed.
