(** What the padding, flags and sizes of accounts are meant to guarantee, on bytes. *)
From Verif Require Import Base Fees Queue Codec Critbit Market Matching Instr InstrProofs Store Process Borsh BorshProofs Layout.

Inductive kind := KMarket | KOrders | KBook (sd : side) | KReq | KEvent.
(** An account's bytes are usable as a kind when some call of that kind's loader accepts them *)
Definition accepts (k : kind) (b : bytes) : Prop :=
  match k with
  | KMarket => exists m, b_market b true = Ok m
  | KOrders => exists prog_ok exempt m owner rent auth o, b_load_orders b prog_ok exempt m owner rent auth = Ok o
  | KBook sd => exists x, b_book sd b = Ok x
  | KReq => exists x, b_req_q b = Ok x
  | KEvent => exists x, b_event_q b = Ok x
  end.
(** The bytes of each kind, spelled out: total length, the eight flag bytes after the first five, and the padding *)
Definition fits_kind (k : kind) (b : bytes) : Prop :=
  match k with
  | KMarket => (length b = 388%nat /\ (num b 5 8 = 3 \/ num b 5 8 = 131)) \/ (length b = 1476%nat /\ In (num b 5 8) [515; 1539; 643; 1667])
  | KOrders => length b = 3228%nat /\ (num b 5 8 = 0 \/ num b 5 8 = 5)
  | KBook sd => (length b mod 8 = 4)%nat /\ (52 <= length b)%nat /\ num b 5 8 = match sd with Bid => 33 | Ask => 65 end
  | KReq => (length b mod 8 = 4)%nat /\ (44 <= length b)%nat /\ num b 5 8 = 9
  | KEvent => (length b mod 8 = 4)%nat /\ (44 <= length b)%nat /\ num b 5 8 = 17
  end.
Definition padded (b : bytes) : Prop := firstn 5 b = [115; 101; 114; 117; 109] /\ skipn (length b - 7) b = [112; 97; 100; 100; 105; 110; 103].

(** The bytes of a dex account at rest: untouched, or padded with some flag set *)
Definition proper (b : bytes) : Prop :=
  all_zero b = true \/ exists d, b = framed d /\ (length d mod 8 = 0)%nat /\ (8 <= length d)%nat /\ num d 0 8 <> 0.
(** The account at [k] has these bytes *)
Definition holds (s : store) (k : Z) (b : bytes) : Prop :=
  a_data (sget s k) = view b /\ a_len (sget s k) = Z.of_nat (length b).


(** Numbers that fit the fields they are written to *)
Definition fits (f : fld) (z : Z) : Prop := match f with U n => 0 <= z < 256 ^ Z.of_nat n | K => wf_key z end.
Definition encodes (fs : list fld) (zs : list Z) : Prop := Forall2 fits fs zs.
Definition node_ok (n : node) : Prop :=
  match n with
  | NUninit => True
  | NInner p k a b => encodes inner_fields [1; p; k; a; b; 0]
  | NLeaf l => encodes leaf_fields [2; l_slot l; l_tier l; 0; l_key l; l_owner l; l_qty l; l_cid l]
  | NFree x | NLastFree x => 0 <= x < 256 ^ 4
  end.
(** The bytes of a queue or a book with these contents and some left-over bytes *)
Definition event_ok (v : event) : Prop := encodes event_fields [e_flags v; e_slot v; e_tier v; 0; e_released v; e_paid v; e_fee v; e_oid v; e_owner v; e_cid v].
Definition enc_queue (q : queue event) (slop : bytes) : bytes :=
  framed (join queue_head [17; q_head q; q_count q; q_seq q] ++ concat (map enc_event (q_buf q)) ++ slop).
Definition enc_reqs (rq : Z * Z) (head : Z) (rest : bytes) : bytes := framed (join queue_head [9; head; fst rq; snd rq] ++ rest).
Definition enc_slab (sd : side) (x : slab) (slop : bytes) : bytes :=
  framed (join [U 8] [1 + side_flag sd] ++ join slab_head [s_bump x; s_free_len x; s_free_head x; s_root x; s_leafs x] ++ concat (map enc_node (s_nodes x)) ++ slop).

