(** An incoming order trades all it can, at the best prices there are (C65), in every state of every history.
    [best_trades], [choice] and [done] are defined in BestSpec.v, [eager] and [reported] in MatchSpec.v. *)
From Verif Require Import Base Fees ListSum Codec Critbit CritbitSlab Market Matching Slots MatchSteps Ledger MatchSpec Core CoreNew Instr Store Process StoreProofs World WorldInv WorldSpec BestSpec BestProofs WorldExample.

(** Best execution: take any lots of the other side of the book, none of them the account's own, as many as the order
    traded.  Buying them would not have cost less, and selling to them would not have brought more. *)
Theorem C65_best_execution_of_orders : forall e, env_ok e -> forall s k m A L, history e s -> no_overflow e s -> seen e s k m A L -> usable m ->
  forall c ix ms s', process e c s (INewOrderV3 ix) ms = Ok s' -> key_at ms 0 = Some k -> order_ix_ok ix ->
  exists x m' A' L' E, key_at ms 1 = Some x /\ seen e s' k m' A' L' /\ a_evs A' = a_evs A ++ E /\
    best_trades (oi_side ix) (m_coin_lot m) (m_pc_lot m) x (book_of A (other (oi_side ix))) E.
Proof. exact order_best. Qed.
Print Assumptions C65_best_execution_of_orders.
Theorem C65_best_execution_of_takes : forall e, env_ok e -> forall s k m A L, history e s -> no_overflow e s -> seen e s k m A L -> usable m ->
  forall c ix ms s', process e c s (ISendTake ix) ms = Ok s' -> key_at ms 0 = Some k -> take_ix_ok ix ->
  exists m' A' E, seen e s' k m' A' L /\ a_evs A' = a_evs A ++ E /\ best_trades (ti_side ix) (m_coin_lot m) (m_pc_lot m) 0 (book_of A (other (ti_side ix))) E.
Proof. exact take_best. Qed.
Print Assumptions C65_best_execution_of_takes.

(** The order does not stop early: each meeting takes the most it can, and the last one is the last because the allowed
    number of meetings took place, nothing of the order is left, or every order still on the other side is
    outside the limit or too dear for one lot of it, with its fee, to be paid from what is left. *)
Theorem C65_orders_trade_all_they_can : forall e, env_ok e -> forall s k m A L, history e s -> no_overflow e s -> seen e s k m A L -> usable m ->
  forall c ix ms s', process e c s (INewOrderV3 ix) ms = Ok s' -> key_at ms 0 = Some k -> order_ix_ok ix -> oi_ot ix <> PostOnly ->
  exists x w t id slot m' A' L' tr gs Ee, key_at ms 1 = Some x /\ signs ms 7 w /\ tier_for s k w (key_at ms 12) t /\ seen e s' k m' A' L' /\ a_evs A' = a_evs A ++ concat gs ++ Ee /\ nofill Ee /\
    let tk := mkTaker (oi_side ix) id x slot t (oi_cid ix) (oi_st ix) false in let money := match oi_side ix with Bid => oi_pc ix | Ask => 0 end in let bk := book_of A (other (oi_side ix)) in
    tk_limit tk = oi_price ix /\ Forall2 (reported (m_coin_lot m) (m_pc_lot m) tk) tr gs /\ eager (m_pc_lot m) tk (Z.to_nat (oi_limit ix)) (oi_qty ix) money bk tr /\
    done (m_pc_lot m) tk (Z.to_nat (oi_limit ix)) (oi_qty ix) money tr (book_of A' (other (oi_side ix))).
Proof. exact order_all. Qed.
Print Assumptions C65_orders_trade_all_they_can.
Theorem C65_takes_trade_all_they_can : forall e, env_ok e -> forall s k m A L, history e s -> no_overflow e s -> seen e s k m A L -> usable m ->
  forall c ix ms s', process e c s (ISendTake ix) ms = Ok s' -> key_at ms 0 = Some k -> take_ix_ok ix ->
  exists w t id m' A' tr gs, signs ms 7 w /\ tier_for s k w (key_at ms 12) t /\ seen e s' k m' A' L /\ a_evs A' = a_evs A ++ concat gs /\
    let tk := mkTaker (ti_side ix) id 0 0 t 0 AbortTransaction true in let money := match ti_side ix with Bid => ti_pc ix | Ask => 0 end in let bk := book_of A (other (ti_side ix)) in
    tk_limit tk = ti_price ix /\ Forall2 (reported (m_coin_lot m) (m_pc_lot m) tk) tr gs /\ eager (m_pc_lot m) tk (Z.to_nat (ti_limit ix)) (ti_qty ix) money bk tr /\
    done (m_pc_lot m) tk (Z.to_nat (ti_limit ix)) (ti_qty ix) money tr (book_of A' (other (ti_side ix))).
Proof. exact take_all. Qed.
Print Assumptions C65_takes_trade_all_they_can.
(** Nothing about the trades is left open: the book, the quantity, the money and the number of meetings fix them. *)
Theorem C65_no_other_trades : forall e, env_ok e -> forall s k m A L, history e s -> seen e s k m A L -> usable m -> forall sd tk limit q money tr tr', money < B64 ->
  eager (m_pc_lot m) tk limit q money (book_of A sd) tr -> eager (m_pc_lot m) tk limit q money (book_of A sd) tr' -> tr = tr'.
Proof. exact only_trades. Qed.
Print Assumptions C65_no_other_trades.

(** Alice offers 4 lots at 50 and more at 60.  Bob takes 5 lots; three at 50 and two at 60 are another way to get as many, and a dearer one. *)
Definition best_ms := map k_ [10; 11; 12; 13; 14; 112; 113] ++ [s_ 110] ++ map k_ [15; 16; spl_id; 900].
Definition best_ix := mkTakeIx Bid 60 5 1000000 5 0 65535.
Definition best_other (key : Z) : Z := if key / B64 =? 50 then 3 else 2.
Example C65_case : env_ok ex_env /\ history ex_env w3 /\ no_overflow ex_env w3 /\ seen ex_env w3 10 w3_m w3_A w3_L /\ usable w3_m /\ take_ix_ok best_ix /\ key_at best_ms 0 = Some 10 /\
  (exists s', process ex_env ex_clock w3 (ISendTake best_ix) best_ms = Ok s') /\ map l_price (a_asks w3_A) = [50; 60] /\
  choice 0 (a_asks w3_A) best_other /\ chosen best_other (a_asks w3_A) = 5 /\ m_pc_lot w3_m * worth best_other (a_asks w3_A) = 270000 /\
  (exists ix s', ix4 = INewOrderV3 ix /\ order_ix_ok ix /\ oi_ot ix <> PostOnly /\ key_at (ms_order 111 113 110) 0 = Some 10 /\ process ex_env ex_clock w3 ix4 (ms_order 111 113 110) = Ok s').
Proof.
  split; [exact ex_env_ok|]. split; [exact w3_h|]. split; [apply guard_ok; vm_compute; reflexivity|]. split; [exact w3_seen|]. split; [exact w3_usable|].
  split; [constructor; cbn; unfold u64; lia|]. split; [vm_compute; reflexivity|]. split; [apply succeeds_ok; vm_compute; reflexivity|]. split; [vm_compute; reflexivity|].
  split. { intros l I. destruct I as [<-|[<-|[]]]; (split; [vm_compute; split; congruence|vm_compute; congruence]). }
  split; [vm_compute; reflexivity|]. split; [vm_compute; reflexivity|].
  destruct (succeeds_ok (process ex_env ex_clock w3 ix4 (ms_order 111 113 110))) as (s' & E); [vm_compute; reflexivity|].
  eexists. exists s'. split; [reflexivity|]. split; [constructor; cbn; unfold u64, I64_MAX; lia|]. split; [discriminate|]. split; [vm_compute; reflexivity|exact E].
Qed.
(** With 140000 of quote currency it is two lots at 50: a third would cost more than what is left. *)
Example C65_money_case : let b := nth 0 (a_asks w3_A) (mkLeaf 0 0 0 0 0 0) in
  eager (m_pc_lot w3_m) (mkTaker Bid (60 * B64) 0 0 TBase 0 AbortTransaction true) 10 5 140000 (a_asks w3_A) [(b, 2)].
Proof.
  assert (B : forall n, best_of Ask (set_qty (nth 0 (a_asks w3_A) (mkLeaf 0 0 0 0 0 0)) n) [set_qty (nth 0 (a_asks w3_A) (mkLeaf 0 0 0 0 0 0)) n; nth 1 (a_asks w3_A) (mkLeaf 0 0 0 0 0 0)]).
  { intros n. split; [left; reflexivity|]. intros x [<-|[<-|[]]]; [left; reflexivity|right; vm_compute; reflexivity]. }
  cbv zeta. apply eager_round.
  - lia.
  - exact (B 4).
  - vm_compute. discriminate.
  - intros _. vm_compute. discriminate.
  - change (_ && _) with false. split; [vm_compute; split; congruence|]. split; [lia|]. split; [intros _; vm_compute; discriminate|]. right. right. intros X. specialize (X eq_refl). vm_compute in X. apply X. reflexivity.
  - apply eager_stop. right. right. intros b HB _ AF. assert (b = set_qty (nth 0 (a_asks w3_A) (mkLeaf 0 0 0 0 0 0)) 2) as -> by (eapply best_unique; [exact HB|exact (B 2)]).
    specialize (AF eq_refl). vm_compute in AF. apply AF. reflexivity.
Qed.
