(** What an onlooker reads off the chain about one market: the vocabulary of the world properties.
    Nothing here is part of the program. *)
From Coq Require Import Permutation.
From Verif Require Import Base Fees ListSum Queue QueueProofs Codec Critbit CritbitSlab Market Matching Slots MatchSteps Ledger MatchSpec Core Instr Store Process StoreProofs World.

(** Every state of every history in which the guard of World.v holds when a transaction starts. *)
Definition history (e : env) (s : store) : Prop := reachable e (no_overflow e) s.

(** Market [k] with record [m] holds the resting orders and unconsumed events of [A]; [L] are its
    open-orders accounts. *)
Record seen (e : env) (s : store) (k : Z) (m : market) (A : astate) (L : list (Z * open_orders)) : Prop := mkSeen {
  sn_mkt : dexd e s k = Some (DMarket m);
  sn_bids : exists sl, dexd e s (m_bids m) = Some (DSlab Bid sl) /\ book sl = a_bids A;
  sn_asks : exists sl, dexd e s (m_asks m) = Some (DSlab Ask sl) /\ book sl = a_asks A;
  sn_evs : exists q, dexd e s (m_event_q m) = Some (DEventQ q) /\ Forall2 (fun ev v => event_as_view ev = Ok v) (q_list q) (a_evs A);
  sn_once : NoDup (map fst L);
  sn_oos : forall x oo, In (x, oo) L <-> dexd e s x = Some (DOO oo) /\ oo_flags oo = OO_FLAGS /\ oo_market oo = k }.

(** Totals over all accounts of a market. *)
Definition total (f : open_orders -> Z) (L : list (Z * open_orders)) : Z := zsum (fun a => f (snd a)) L.
(** Tokens in a token account. *)
Definition holds (s : store) (v amount : Z) : Prop := exists t, token_at s v = Some t /\ amount <= t_amount t.
(** Token account [v] belongs to the program alone. *)
Definition program_owned (e : env) (s : store) (k : Z) (m : market) (v : Z) : Prop :=
  exists t p, token_at s v = Some t /\ e_pda e (m_nonce m) k = Some p /\ t_owner t = p /\ t_delegate t = None /\ t_close t = None.

(** What a resting order locks. *)
Definition worth (m : market) (sd : side) (l : leaf) : Z :=
  match sd with Bid => l_qty l * l_price l * m_pc_lot m | Ask => l_qty l * m_coin_lot m end.
(** Orders of account [x] on one side. *)
Definition own_orders (x : Z) (bk : list leaf) : list leaf := filter (fun l => l_owner l =? x) bk.

(** Slots, owner, market and flags of an account are unchanged. *)
Definition same_orders (oo oo' : open_orders) : Prop :=
  oo_flags oo' = oo_flags oo /\ oo_market oo' = oo_market oo /\ oo_owner oo' = oo_owner oo /\
  forall i, 0 <= i < 128 -> is_free oo' i = is_free oo i /\ order_at oo' i = order_at oo i /\ side_at oo' i = side_at oo i /\ cid_at oo' i = cid_at oo i.
(** Balances after: free coin, total coin, free quote, total quote, rebates, each by a difference. *)
Definition changed_by (oo oo' : open_orders) (cf ct pf pt rb : Z) : Prop :=
  oo_coin_free oo' = oo_coin_free oo + cf /\ oo_coin_total oo' = oo_coin_total oo + ct /\
  oo_pc_free oo' = oo_pc_free oo + pf /\ oo_pc_total oo' = oo_pc_total oo + pt /\ oo_rebates oo' = oo_rebates oo + rb.

(** No account outside the list changes in any way. *)
Definition only (s s' : store) (ys : list Z) : Prop := forall y, ~ In y ys -> sget s' y = sget s y.
(** A key of the account list is [w] and is marked as signer. *)
Definition signed_by (ms : list meta) (w : Z) : Prop := exists a, In a ms /\ mk a = w /\ mk_signer a = true.
(** The [i]-th account of the instruction. *)
Definition key_at (ms : list meta) (i : nat) : option Z := option_map mk (nth_error ms i).

(** ** Effects *)
(** The list of accounts with account [x] replaced. *)
Definition put_acct (L : list (Z * open_orders)) (x : Z) (oo : open_orders) : list (Z * open_orders) :=
  map (fun a => if fst a =? x then (x, oo) else a) L.
(** The book without the listed orders. *)
Definition drop (ls bk : list leaf) : list leaf := filter (fun y => negb (existsb (fun l => l_key l =? l_key y) ls)) bk.
(** The final event of an order that leaves the book unfilled, its funds already given back. *)
Definition out_of (m : market) (sd : side) (l : leaf) : event_view :=
  EvOut sd false (worth m sd l) 0 (l_key l) (l_owner l) (l_slot l) (l_cid l).
(** Bids [bl] and asks [al] of account [x] leave the book and nothing else does; each leaves one final
    event; what they locked is free at once. *)
Record withdrawn (m : market) (A : astate) (x : Z) (oo : open_orders) (A' : astate) (oo' : open_orders) (bl al : list leaf) : Prop := mkWithdrawn {
  wd_bl : forall l, In l bl -> In l (a_bids A) /\ l_owner l = x;
  wd_al : forall l, In l al -> In l (a_asks A) /\ l_owner l = x;
  wd_bids : a_bids A' = drop bl (a_bids A);
  wd_asks : a_asks A' = drop al (a_asks A);
  wd_evs : exists E, a_evs A' = a_evs A ++ E /\ Permutation E (map (out_of m Bid) bl ++ map (out_of m Ask) al);
  wd_bal : changed_by oo oo' (zsum (worth m Ask) al) 0 (zsum (worth m Bid) bl) 0 0;
  wd_slots : same_orders oo oo' }.
(** ... and in the store that is all that happens. *)
Definition cancels (e : env) (s s' : store) (k : Z) (m : market) (A : astate) (L : list (Z * open_orders)) (x : Z) (oo : open_orders) (bl al : list leaf) : Prop :=
  exists A' oo', withdrawn m A x oo A' oo' bl al /\ seen e s' k m A' (put_acct L x oo') /\ only s s' [m_bids m; m_asks m; m_event_q m; x].
(** The orders of account [x] carrying one of the client ids; 0 stands for no id. *)
Definition with_cid (x : Z) (cids : list Z) (bk : list leaf) : list leaf :=
  filter (fun l => existsb (Z.eqb (l_cid l)) cids && negb (l_cid l =? 0)) (own_orders x bk).
(** The event queue has room for [n] more events. *)
Definition places (e : env) (s : store) (m : market) (n : Z) : Prop :=
  exists q, dexd e s (m_event_q m) = Some (DEventQ q) /\ zlen (q_list q) + n <= zlen (q_buf q).
(** Account [i] of the instruction is [w] and marked as signer. *)
Definition signs (ms : list meta) (i : nat) (w : Z) : Prop := nth_error ms i = Some (mkMeta w true).

(** ** Event consumption *)
(** The longest start of the queue, at most [n] events, all of whose owners are among [oos]. *)
Fixpoint served (n : nat) (oos : list Z) (evs : list event_view) : list event_view :=
  match n, evs with
  | S n', v :: r => if existsb (Z.eqb (ev_owner v)) oos then v :: served n' oos r else []
  | _, _ => []
  end.
(** What one event does to the account it belongs to: a resting order's fill moves what was traded, a
    taker's fill records the referrer's share, the final event frees the slot and what is still locked. *)
Record event_booked (v : event_view) (oo oo' : open_orders) : Prop := mkBooked {
  eb_bal : match v with
    | EvFill Bid true paid received _ _ _ _ _ _ => changed_by oo oo' received received 0 (- paid) 0
    | EvFill Ask true paid received _ _ _ _ _ _ => changed_by oo oo' 0 (- paid) received received 0
    | EvFill _ false _ _ fee _ _ _ _ _ => changed_by oo oo' 0 0 0 0 (fee / 5)
    | EvOut Bid release unlocked _ _ _ _ _ => changed_by oo oo' 0 0 (if release then unlocked else 0) 0 0
    | EvOut Ask release unlocked _ _ _ _ _ => changed_by oo oo' (if release then unlocked else 0) 0 0 0 0
    end;
  eb_id : oo_flags oo' = oo_flags oo /\ oo_market oo' = oo_market oo /\ oo_owner oo' = oo_owner oo;
  eb_slots : forall i, 0 <= i < 128 ->
    if ev_final v && (i =? ev_slot v) then is_free oo' i = true
    else is_free oo' i = is_free oo i /\ order_at oo' i = order_at oo i /\ side_at oo' i = side_at oo i /\ cid_at oo' i = cid_at oo i }.
Fixpoint booked (vs : list event_view) (oo oo' : open_orders) : Prop :=
  match vs with
  | [] => oo' = oo
  | v :: r => exists oo1, event_booked v oo oo1 /\ booked r oo1 oo'
  end.
(** The events [vs] at the head of the queue are gone, each applied once and in order to its owner's
    account; nothing else changed. *)
Definition consumes (e : env) (s s' : store) (k : Z) (m : market) (A : astate) (L : list (Z * open_orders)) (vs : list event_view) : Prop :=
  exists rest L', a_evs A = vs ++ rest /\ seen e s' k m (mkA (a_bids A) (a_asks A) rest) L' /\
    (forall x, In x (map fst L') <-> In x (map fst L)) /\
    (forall x oo, In (x, oo) L -> exists oo', In (x, oo') L' /\ booked (filter (fun v => ev_owner v =? x) vs) oo oo') /\
    only s s' (m_event_q m :: map ev_owner vs).
(** The two consume instructions on market [k] with open-orders accounts [oos]. *)
Definition crank (i : instr) (ms : list meta) (k q : Z) (oos : list Z) (n : Z) : Prop :=
  oos <> [] /\ 0 <= n /\
  ((i = IConsumeEvents n /\ exists a b, map mk ms = oos ++ [k; q; a; b]) \/
   (i = IConsumePermissioned n /\ exists a, map mk ms = oos ++ [k; q; a])).
(** ... signed as the market demands. *)
Definition crank_allowed (m : market) (i : instr) (ms : list meta) : Prop :=
  match i with
  | IConsumeEvents _ => has_flag (m_flags m) AF_Permissioned = false \/ has_flag (m_flags m) AF_CrankAuth = false
  | IConsumePermissioned _ => has_flag (m_flags m) AF_Permissioned = true /\ has_flag (m_flags m) AF_CrankAuth = true /\ exists ms0, ms = ms0 ++ [mkMeta (m_crank_auth m) true]
  | _ => False
  end.

(** ** Token movements *)
(** Payments (from, to, amount) are made and no other: every token account has its old amount plus what
    it received minus what it paid, and keeps its mint and owner. *)
Definition got (v : Z) (p : Z * Z * Z) : Z := let '(src, dst, a) := p in (if v =? dst then a else 0) - (if v =? src then a else 0).
Definition moves (s s' : store) (ps : list (Z * Z * Z)) : Prop := forall v,
  match token_at s v with
  | Some t => exists t', token_at s' v = Some t' /\ t_mint t' = t_mint t /\ t_owner t' = t_owner t /\ t_state t' = t_state t /\ t_amount t' = t_amount t + zsum (got v) ps
  | None => token_at s' v = None
  end.
(** A token account in use, of the given mint, that can take [room] more. *)
Definition wallet (s : store) (v mint room : Z) : Prop :=
  exists t, token_at s v = Some t /\ a_len (sget s v) = 165 /\ t_state t = 1 /\ t_mint t = mint /\ t_amount t + room < B64.
(** The mint's freeze authority has not frozen this account. *)
Definition thawed (s : store) (v : Z) : Prop := exists t, token_at s v = Some t /\ t_state t = 1.
(** Settling account [x]: all free amounts go to the two wallets, the referrer's share to the referrer if
    one is given and else to the market's fees; locked amounts and orders stay. *)
Definition settles (e : env) (s s' : store) (k : Z) (m : market) (A : astate) (L : list (Z * open_orders)) (x : Z) (oo : open_orders)
    (cw pw : Z) (ref : option Z) : Prop :=
  exists m' oo', seen e s' k m' A (put_acct L x oo') /\
    m' = set_counters m (m_coin_deposits m - oo_coin_free oo) (m_pc_deposits m - oo_pc_free oo)
           (m_pc_fees m + match ref with Some _ => 0 | None => oo_rebates oo end) (m_rebates m - oo_rebates oo) /\
    changed_by oo oo' (- oo_coin_free oo) (- oo_coin_free oo) (- oo_pc_free oo) (- oo_pc_free oo) (- oo_rebates oo) /\ same_orders oo oo' /\
    moves s s' ([(m_coin_vault m, cw, oo_coin_free oo); (m_pc_vault m, pw, oo_pc_free oo)] ++ match ref with Some r => [(m_pc_vault m, r, oo_rebates oo)] | None => [] end) /\
    only s s' ([k; x; m_coin_vault m; m_pc_vault m; cw; pw] ++ match ref with Some r => [r] | None => [] end).

(** ** Trading *)
(** The fee tier a discount account earns, none given or one that belongs to the trader. *)
Definition tier_for (s : store) (k w : Z) (disc : option Z) (t : tier) : Prop :=
  match disc with
  | None => t = tier_from_balances k 0 0
  | Some d => exists td, token_at s d = Some td /\ t_owner td = w /\
      t = tier_from_balances k (if t_mint td =? srm_mint then t_amount td else 0) (if t_mint td =? msrm_mint then t_amount td else 0)
  end.
(** The number the market gives to the next order, and the id of an order with that number: priority goes by
    price, then by number. *)
Definition next_number (e : env) (s : store) (m : market) (n : Z) : Prop := dexd e s (m_req_q m) = Some (DReqQ (0, n)).
Definition numbered (sd : side) (price n : Z) : Z := price * B64 + match sd with Bid => B64 - 1 - n | Ask => n end.
(** A send-take: the rounds it trades in, what it pays and gets, and that nothing of it stays. *)
Definition takes (e : env) (s s' : store) (k : Z) (m : market) (A : astate) (L : list (Z * open_orders)) (ix : take_ix) (t : tier) (cw pw : Z) : Prop :=
  exists m' A' tr q' gs id,
    let sd := ti_side ix in let tk := mkTaker sd id 0 0 t 0 AbortTransaction true in
    let lots := zsum (tr_coin tk) tr in let val := zsum (tr_value (m_pc_lot m) tk) tr in
    let fee := zsum (tr_fee (m_pc_lot m) tk) tr in let fifth := zsum (tr_fifth (m_pc_lot m) tk) tr in
    (tk_limit tk = ti_price ix /\ exists num, next_number e s m num /\ next_number e s' m (num + 1)) /\ seen e s' k m' A' L /\
    rounds tk (ti_qty ix) (book_of A (other sd)) tr q' (book_of A' (other sd)) /\
    ((length tr <= Z.to_nat (ti_limit ix))%nat /\ eager (m_pc_lot m) tk (Z.to_nat (ti_limit ix)) (ti_qty ix) (match sd with Bid => ti_pc ix | Ask => 0 end) (book_of A (other sd)) tr) /\ book_of A' sd = book_of A sd /\
    a_evs A' = a_evs A ++ concat gs /\ Forall2 (reported (m_coin_lot m) (m_pc_lot m) tk) tr gs /\ (forall v, In v (concat gs) -> ev_owner v <> 0) /\
    0 <= lots <= ti_qty ix /\ only s s' [k; m_req_q m; m_event_q m; m_bids m; m_asks m; cw; pw; m_coin_vault m; m_pc_vault m] /\
    match sd with
    | Bid => val + fee <= ti_pc ix /\ ti_min_coin ix <= lots /\ moves s s' [(pw, m_pc_vault m, val + fee); (m_coin_vault m, cw, lots * m_coin_lot m)] /\
        m' = set_counters m (m_coin_deposits m - lots * m_coin_lot m) (m_pc_deposits m + val) (m_pc_fees m + fee - fifth) (m_rebates m + fifth)
    | Ask => ti_min_pc ix <= val - fee /\ moves s s' [(cw, m_coin_vault m, lots * m_coin_lot m); (m_pc_vault m, pw, val - fee)] /\
        m' = set_counters m (m_coin_deposits m + lots * m_coin_lot m) (m_pc_deposits m - val) (m_pc_fees m + fee - fifth) (m_rebates m + fifth)
    end.
(** An account just opened for [w], nothing in it. *)
Definition blank_for (k w : Z) (oo : open_orders) : Prop :=
  oo_flags oo = OO_FLAGS /\ oo_market oo = k /\ oo_owner oo = w /\ oo_coin_free oo = 0 /\ oo_coin_total oo = 0 /\ oo_pc_free oo = 0 /\ oo_pc_total oo = 0 /\ oo_rebates oo = 0 /\
  forall i, 0 <= i < 128 -> is_free oo i = true.
(** An order for account [x]: [dep] is taken from the payer, the order trades as [report] says, [n] lots
    stay on the book and everything else the trader owns is free. *)
Definition orders (e : env) (s s' : store) (k : Z) (m : market) (A : astate) (L : list (Z * open_orders)) (ix : order_ix) (t : tier) (x payer : Z) (oo : open_orders) : Prop :=
  exists m' A' L' oo' tr q' n E slot id dep,
    let sd := oi_side ix in let tk := mkTaker sd id x slot t (oi_cid ix) (oi_st ix) false in let cl := m_coin_lot m in let pl := m_pc_lot m in
    let lots := zsum (tr_coin tk) tr in let val := zsum (tr_value pl tk) tr in
    let fee := zsum (tr_fee pl tk) tr in let fifth := zsum (tr_fifth pl tk) tr in
    tk_limit tk = oi_price ix /\ ((forall l, In l (book_of A sd) -> l_key l <> id) /\ exists num, next_number e s m num /\ next_number e s' m (num + 1) /\ id = numbered sd (oi_price ix) num) /\
    seen e s' k m' A' L' /\ (forall y oy, In (y, oy) L' <-> (y = x /\ oy = oo') \/ (y <> x /\ In (y, oy) L)) /\
    a_evs A' = a_evs A ++ E /\
    (forall sl, dexd e s (match sd with Bid => m_bids m | Ask => m_asks m end) = Some (DSlab sd sl) ->
       report cl pl tk (Z.to_nat (oi_limit ix)) (ot_post_only (oi_ot ix)) (has_room (slab_cap sl) (book_of A sd)) (ot_post_allowed (oi_ot ix)) (oi_qty ix)
         (match sd with Bid => oi_pc ix | Ask => 0 end) (book_of A (other sd)) (book_of A sd) (book_of A' (other sd)) (book_of A' sd) E tr q' n) /\
    (oo_flags oo' = oo_flags oo /\ oo_market oo' = oo_market oo /\ oo_owner oo' = oo_owner oo) /\
    (0 <= slot < 128 /\ is_free oo slot = true /\ is_free oo' slot = false /\ order_at oo' slot = id /\ side_at oo' slot = sd /\ cid_at oo' slot = oi_cid ix) /\
    (forall j, 0 <= j < 128 -> j <> slot -> is_free oo' j = is_free oo j /\ order_at oo' j = order_at oo j /\ side_at oo' j = side_at oo j /\ cid_at oo' j = cid_at oo j) /\
    (only s s' [k; x; m_req_q m; m_event_q m; m_bids m; m_asks m; payer; match sd with Bid => m_pc_vault m | Ask => m_coin_vault m end] /\
     (dep = 0 \/ payer <> match sd with Bid => m_pc_vault m | Ask => m_coin_vault m end) /\
     (dep = 0 \/ is_pda e (oo_owner oo) \/ (payer <> m_coin_vault m /\ payer <> m_pc_vault m))) /\
    match sd with
    | Bid => dep = Z.max 0 (oi_pc ix - oo_pc_free oo) /\ val + fee + n * oi_price ix * pl <= oi_pc ix /\
        changed_by oo oo' (lots * cl) (lots * cl) (dep - val - fee - n * oi_price ix * pl) (dep - val - fee) 0 /\
        moves s s' [(payer, m_pc_vault m, dep)] /\
        m' = set_counters m (m_coin_deposits m) (m_pc_deposits m + dep - fee) (m_pc_fees m + fee - fifth) (m_rebates m + fifth)
    | Ask => dep = Z.max 0 (oi_qty ix * cl - oo_coin_free oo) /\ lots + n <= oi_qty ix /\
        changed_by oo oo' (dep - lots * cl - n * cl) (dep - lots * cl) (val - fee) (val - fee) 0 /\
        moves s s' [(payer, m_coin_vault m, dep)] /\
        m' = set_counters m (m_coin_deposits m + dep) (m_pc_deposits m - fee) (m_pc_fees m + fee - fifth) (m_rebates m + fifth)
    end.
(** The orders of a replace, one after the other, for account [x] of owner [w]. *)
Inductive placing (e : env) (k x payer w : Z) (disc : option Z) : store -> list order_ix -> store -> Prop :=
| placing_nil s : placing e k x payer w disc s [] s
| placing_cons s s1 s' m A L oo t ix r : seen e s k m A L -> In (x, oo) L -> oo_owner oo = w -> tier_for s k w disc t ->
    orders e s s1 k m A L ix t x payer oo -> placing e k x payer w disc s1 r s' -> placing e k x payer w disc s (ix :: r) s'.

(** The accounts of market [k]: the market itself, books, queues and the open-orders accounts opened on it. *)
Definition belongs (e : env) (s : store) (k : Z) (m : market) (y : Z) : Prop :=
  y = k \/ y = m_bids m \/ y = m_asks m \/ y = m_req_q m \/ y = m_event_q m \/ exists oo, dexd e s y = Some (DOO oo) /\ oo_market oo = k.

(** A guard that speaks of token accounts alone: no vault of market [k] holds more than [K k], and so much for
    every place of the event queue and once more still fits into 64 bits; the order counter has room. *)
Definition modest (e : env) (K : Z -> Z) (s : store) : Prop := forall k m, dexd e s k = Some (DMarket m) -> usable m ->
  (forall v t, v = m_coin_vault m \/ v = m_pc_vault m -> token_at s v = Some t -> t_amount t <= K k) /\
  (forall q, dexd e s (m_event_q m) = Some (DEventQ q) -> K k * (1 + zlen (q_buf q)) < B64) /\
  (forall c seq, dexd e s (m_req_q m) = Some (DReqQ (c, seq)) -> seq + 16 < B64).

(** ** Who may do what *)
(** Any continuation at all: transactions of any bytes, accounts and signers, and whatever other programs may do. *)
Inductive later (e : env) (s : store) : store -> Prop :=
| later_now : later e s s
| later_tx s1 c b ms : later e s s1 -> later e s (transact e c s1 b ms)
| later_env s1 s2 : later e s s1 -> rely e s1 s2 -> later e s s2.
(** Any state of any history, with no guard. *)
Definition anytime (e : env) (s : store) : Prop := exists s0, genesis e s0 /\ later e s0 s.
Definition disabled (m : market) : Prop := Z.testbit (m_flags m) 7 = true.
Definition permissioned (m : market) : Prop := Z.testbit (m_flags m) 9 = true.
Definition needs_crank_authority (m : market) : Prop := permissioned m /\ Z.testbit (m_flags m) 10 = true.
(** An instruction that would place an order, take, or open an account on market [k]. *)
Definition opens_position (i : instr) (ms : list meta) (k : Z) : Prop :=
  match i with
  | INewOrderV3 _ | ISendTake _ | IReplaceOne _ | IReplaceMany (_ :: _) => key_at ms 0 = Some k
  | IInitOO => key_at ms 2 = Some k
  | _ => False
  end.
(** The open-orders account an instruction acts for. *)
Definition acts_for (i : instr) (ms : list meta) : option Z :=
  match i with
  | INewOrderV3 _ | ISettleFunds | IReplaceOne _ | IReplaceMany _ => key_at ms 1
  | ICancelV2 _ _ | ICancelByCid _ | ICancelByCids _ => key_at ms 3
  | ICloseOO | IInitOO => key_at ms 0
  | _ => None
  end.
(** The instructions that pay out of a market's vaults. *)
Definition pays_from_vault (i : instr) : Prop := match i with ISettleFunds | ISendTake _ | ISweepFees => True | _ => False end.
Definition consuming (i : instr) : Prop := exists n, i = IConsumeEvents n \/ i = IConsumePermissioned n.
(** Everything about a market except its four counters and its flags. *)
Definition same_config (m m' : market) : Prop :=
  exists cd pd pf rb fl, m' = set_flags (set_counters m cd pd pf rb) fl.
