(** What it takes for a new order to be accepted, stated over the books and the account only. *)
From Verif Require Import Base Fees ListSum Critbit CritbitSlab Codec Market Matching MatchSteps Ledger MatchSpec Core Store StoreProofs World WorldInv WorldSpec.

(** A resting order on the other side that an incoming order on side [sd] with limit [lim] may meet. *)
Definition reaches (sd : side) (lim : Z) (l : leaf) : bool :=
  match sd with Bid => l_price l <=? lim | Ask => lim <=? l_price l end.
(** One of them belongs to the account [k] that places the order. *)
Definition own_in_reach (opp : list leaf) (sd : side) (lim k : Z) : bool :=
  existsb (fun l => (l_owner l =? k) && reaches sd lim l) opp.
(** The resting orders served before [l]. *)
Definition ahead_of (sd : side) (opp : list leaf) (l : leaf) : list leaf :=
  filter (fun a => match sd with Bid => l_key a <? l_key l | Ask => l_key l <? l_key a end) opp.
(** The order gets as far as an order of its own account: the orders ahead of it do not fill it, they are fewer than
    the rounds allowed, and after paying for them a bid can still pay for one lot at the price of its own order. *)
Definition meets_own (opp : list leaf) (sd : side) (lim k qty pc pc_lot limit : Z) : Prop :=
  exists l, In l opp /\ l_owner l = k /\ reaches sd lim l = true /\
    zsum l_qty (ahead_of sd opp l) < qty /\ zlen (ahead_of sd opp l) < limit /\
    (sd = Bid -> zsum (fun a => l_qty a * l_price a * pc_lot) (ahead_of sd opp l) + l_price l * pc_lot <= pc).
(** The most matching rounds an order can take: at most [limit], and at most one more than there are
    resting orders on the other side.  Only a bid that decrements its owner's own asks may meet the
    same order more than twice, because what it does not spend on fees is spent later. *)
Definition most_rounds (opp : list leaf) (sd : side) (lim k : Z) (st : self_trade) (limit : Z) : Z :=
  match sd, st with
  | Bid, DecrementTake => if own_in_reach opp sd lim k then limit else Z.min limit (zlen opp + 1)
  | _, _ => Z.min limit (zlen opp + 1)
  end.
(** Each round reports at most four events, and so does the end of the order. *)
Definition events_needed (opp : list leaf) (sd : side) (lim k : Z) (st : self_trade) (limit : Z) : Z :=
  4 * (most_rounds opp sd lim k st limit + 1).

(** The events the order would report, number [num] on market [m] with books and events [A] for account [x] at fee
    tier [t], do not fit into a queue with [places] places.  [cap] is the size of the book it would rest in. *)
Definition overflows (m : market) (A : astate) (x : Z) (ix : order_ix) (t : tier) (num cap places : Z) : Prop :=
  exists slot opp' own' E tr q' n,
    let sd := oi_side ix in
    report (m_coin_lot m) (m_pc_lot m) (mkTaker sd (numbered sd (oi_price ix) num) x slot t (oi_cid ix) (oi_st ix) false)
      (Z.to_nat (oi_limit ix)) (ot_post_only (oi_ot ix)) (has_room cap (book_of A sd)) (ot_post_allowed (oi_ot ix)) (oi_qty ix)
      (match sd with Bid => oi_pc ix | Ask => 0 end) (book_of A (other sd)) (book_of A sd) opp' own' E tr q' n /\
    places < zlen (a_evs A) + zlen E.

(** What the order locks, and what of it has to come from the owner's token account. *)
Definition locks (ix : order_ix) (coin_lot : Z) : Z :=
  match oi_side ix with Bid => oi_pc ix | Ask => oi_qty ix * coin_lot end.
Definition to_pay (ix : order_ix) (coin_lot : Z) (oo : open_orders) : Z :=
  locks ix coin_lot - Z.min (locks ix coin_lot) (match oi_side ix with Bid => oo_pc_free oo | Ask => oo_coin_free oo end).

(** ** The accounts that come with the order *)
(** [w] may move [amt] tokens of [mint] out of [v], as its owner or within an approval. *)
Definition can_pay (s : store) (v w mint amt : Z) : Prop :=
  exists t, token_at s v = Some t /\ a_len (sget s v) = 165 /\ t_state t = 1 /\ t_mint t = mint /\ amt <= t_amount t /\
    (t_delegate t = Some w /\ amt <= t_delegated t \/ t_delegate t <> Some w /\ t_owner t = w).
(** Either none, or a token account of [w]. *)
Definition discount_ok (s : store) (w : Z) (disc : list Z) : Prop :=
  disc = [] \/ exists d t, disc = [d] /\ token_at s d = Some t /\ a_len (sget s d) = 165 /\ t_state t = 1 /\ t_owner t = w.
(** [x] is an account of [w] on market [k] with record [oo], or a blank one that becomes it. *)
Definition account_for (e : env) (s : store) (c : clock) (k : Z) (m : market) (L : list (Z * open_orders)) (x w : Z) (oo : open_orders) : Prop :=
  (In (x, oo) L /\ oo_owner oo = w) \/
  (dexd e s x = Some DZero /\ a_len (sget s x) = 3228 /\ c_exempt c (a_lamports (sget s x)) 3228 = true /\
   has_flag (m_flags m) AF_Permissioned = false /\ blank_for k w oo).
(** The token account an order on side [sd] pays into, and the mint it pays in. *)
Definition pays_into (m : market) (sd : side) : Z := match sd with Bid => m_pc_vault m | Ask => m_coin_vault m end.
Definition pays_in (m : market) (sd : side) : Z := match sd with Bid => m_pc_mint m | Ask => m_coin_mint m end.
