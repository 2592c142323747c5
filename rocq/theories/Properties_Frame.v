(** C43: the padding, flags and sizes of accounts. *)
From Verif Require Import Base Fees Queue Codec Critbit Market Matching Instr InstrProofs Store Process Borsh BorshProofs Layout LayoutSpec LayoutProofs LayoutView.

(** C43: bytes are usable as a market, book or queue exactly when the padding, the flags and the length are those of the kind. *)
Theorem C43_exactly k b : k <> KOrders -> accepts k b <-> padded b /\ fits_kind k b.
Proof. exact (accepts_exactly k b). Qed.
Print Assumptions C43_exactly.
(** C43: bytes are usable as an open-orders account exactly when they have its length and its flags, or no flags yet. *)
Theorem C43_orders_exactly b : accepts KOrders b <-> fits_kind KOrders b.
Proof. exact (accepts_orders b). Qed.
Print Assumptions C43_orders_exactly.
(** C43: no bytes are usable as two different kinds; a book of bids is not a book of asks. *)
Theorem C43_one_kind k k' b : accepts k b -> accepts k' b -> k = k'.
Proof. exact (kinds_exclusive k k' b). Qed.
Print Assumptions C43_one_kind.
(** C43: an account that InitializeMarket takes as fresh is not a market, book or queue. *)
Theorem C43_fresh_is_unused b k : b_fresh b = true -> accepts k b -> k = KOrders.
Proof. exact (fresh_unused b k). Qed.
Print Assumptions C43_fresh_is_unused.
(** C43: loading an open-orders account leaves its padding in place and its contents alone. *)
Theorem C43_orders_padding b d b' : init_padding b = Ok (d, b') -> padded b' /\ inside b' = inside b /\ d = inside b /\ length b' = length b.
Proof. exact (init_padding_ok b d b'). Qed.
Print Assumptions C43_orders_padding.

Definition a_bids : bytes := init_book Bid (repeat 0 7252).
Definition a_queue : bytes := init_event_q (repeat 0 11308).
Definition a_market_state : market := mkMarket 3 1001 7 1002 1003 1004 11 0 1005 22 3 4 1006 1007 1008 1009 100 10 0 5 0 0 0.
Definition a_market : bytes := framed (enc_market a_market_state).
Example C43_nonvacuous : accepts (KBook Bid) a_bids /\ accepts KEvent a_queue /\ accepts KMarket a_market /\ b_fresh (repeat 0 7252) = true /\
  accepts KOrders (repeat 0 3228) /\ ~ accepts (KBook Ask) a_bids /\ init_padding (repeat 0 3228) = Ok (repeat 0 3216, framed (repeat 0 3216)).
Proof.
  assert (B : accepts (KBook Bid) a_bids) by (apply C43_exactly; [discriminate|]; split; [vm_compute; split; reflexivity|]; split; [vm_compute; reflexivity|]; split; [apply Nat.leb_le; vm_compute; reflexivity|vm_compute; reflexivity]).
  split; [exact B|]. split; [apply C43_exactly; [discriminate|]; split; [vm_compute; split; reflexivity|]; split; [vm_compute; reflexivity|]; split; [apply Nat.leb_le; vm_compute; reflexivity|vm_compute; reflexivity]|]. split; [apply C43_exactly; [discriminate|]; split; [vm_compute; split; reflexivity|left; split; [reflexivity|left; reflexivity]]|].
  split; [vm_compute; reflexivity|]. split; [apply C43_orders_exactly; split; [apply repeat_length|left; reflexivity]|]. split; [|vm_compute; reflexivity].
  intros A. discriminate (C43_one_kind _ _ _ A B).
Qed.

(** Not true: an open-orders account may be used although its padding does not match. *)
Theorem C43_orders_padding_refuted : exists b, accepts KOrders b /\ num b 5 8 = 5 /\ ~ padded b.
Proof. exact orders_unpadded. Qed.
Print Assumptions C43_orders_padding_refuted.
(** Not true: a fresh account is blank.  Only its padding and its flags are looked at. *)
Theorem C43_fresh_refuted : exists b x, b_fresh b = true /\ b_book Bid (init_book Bid b) = Ok x /\ s_leafs x = 7.
Proof. exact fresh_not_blank. Qed.
Print Assumptions C43_fresh_refuted.

(** C43: on the bytes of any account at rest, the loaders that read bytes accept what the loaders of Store.v accept, with the same result. *)
Theorem C43_market_loader e s k b allow m : proper b -> holds s k b -> a_prog (sget s k) = e_prog e ->
  load_market e s k allow = Ok m <-> b_market b allow = Ok m.
Proof. exact (agree_market e s k b allow m). Qed.
Print Assumptions C43_market_loader.
Theorem C43_book_loader s k b sd x : proper b -> holds s k b -> load_slab s sd k k = Ok x <-> b_book sd b = Ok x.
Proof. exact (agree_book s k b sd x). Qed.
Print Assumptions C43_book_loader.
Theorem C43_request_queue_loader s m b x : proper b -> holds s (m_req_q m) b -> load_req_q s m (m_req_q m) = Ok x <-> b_req_q b = Ok x.
Proof. exact (agree_req s m b x). Qed.
Print Assumptions C43_request_queue_loader.
Theorem C43_event_queue_loader s m b x : proper b -> holds s (m_event_q m) b -> load_event_q s m (m_event_q m) = Ok x <-> b_event_q b = Ok x.
Proof. exact (agree_event s m b x). Qed.
Print Assumptions C43_event_queue_loader.
Theorem C43_orders_loader e s k b m owner rent auth o : proper b -> holds s k b ->
  load_orders e s m k owner rent auth = Ok o <->
  b_load_orders b (a_prog (sget s k) =? e_prog e) (fun c => c_exempt c (a_lamports (sget s k)) (Z.of_nat (length b))) m owner rent auth = Ok o.
Proof. exact (agree_orders e s k b m owner rent auth o). Qed.
Print Assumptions C43_orders_loader.
Example C43_loaders_nonvacuous : proper a_bids /\ proper a_market /\ proper (repeat 0 3228) /\
  let s := [(1001, mkAccount 9 5 388 (DMarket a_market_state))] in holds s 1001 a_market.
Proof.
  split; [right; exists (inside a_bids); split; [vm_compute; reflexivity|]; split; [vm_compute; reflexivity|]; split; [apply Nat.leb_le; vm_compute; reflexivity|vm_compute; discriminate]|]. split; [right; exists (enc_market a_market_state); split; [vm_compute; reflexivity|]; split; [vm_compute; reflexivity|]; split; [apply Nat.leb_le; vm_compute; reflexivity|vm_compute; discriminate]|].
  split; [left; vm_compute; reflexivity|]. split; vm_compute; reflexivity.
Qed.

(** C43: what is written is what is read. *)
Theorem C43_market_bytes m : encodes market_fields (market_list m) -> In (m_flags m) [3; 131] -> m_oo_auth m = 0 -> m_prune_auth m = 0 -> m_crank_auth m = 0 ->
  view (framed (enc_market m)) = DMarket m.
Proof. exact (enc_market_view m). Qed.
Print Assumptions C43_market_bytes.
Theorem C43_permissioned_market_bytes m : encodes market2_fields (market_list m ++ [m_oo_auth m; m_prune_auth m; m_crank_auth m; 0]) -> In (m_flags m) [515; 1539; 643; 1667] ->
  view (framed (enc_market2 m)) = DMarket m.
Proof. exact (enc_market2_view m). Qed.
Print Assumptions C43_permissioned_market_bytes.
Theorem C43_orders_bytes o : length (oo_orders o) = 128%nat -> length (oo_cids o) = 128%nat -> encodes oo_fields (oo_list o) -> In (oo_flags o) [5; 256] ->
  view (framed (enc_oo o)) = DOO o.
Proof. exact (enc_oo_view o). Qed.
Print Assumptions C43_orders_bytes.
Theorem C43_event_queue_bytes q slop : Forall event_ok (q_buf q) -> encodes queue_head [17; q_head q; q_count q; q_seq q] ->
  (length slop < 88)%nat -> (length slop mod 8 = 0)%nat -> view (enc_queue q slop) = DEventQ q.
Proof. exact (enc_queue_back q slop). Qed.
Print Assumptions C43_event_queue_bytes.
Theorem C43_request_queue_bytes rq head rest : encodes queue_head [9; head; fst rq; snd rq] -> (length rest mod 8 = 0)%nat -> view (enc_reqs rq head rest) = DReqQ rq.
Proof. exact (enc_reqs_back rq head rest). Qed.
Print Assumptions C43_request_queue_bytes.
Theorem C43_book_bytes sd x slop : Forall node_ok (s_nodes x) -> encodes slab_head [s_bump x; s_free_len x; s_free_head x; s_root x; s_leafs x] ->
  (length slop < 72)%nat -> (length slop mod 8 = 0)%nat -> view (enc_slab sd x slop) = DSlab sd x.
Proof. exact (enc_slab_back sd x slop). Qed.
Print Assumptions C43_book_bytes.
Example C43_bytes_nonvacuous : encodes market_fields (market_list a_market_state) /\ event_ok (mkEvent 5 3 1 100 200 3 (2 ^ 70) 77 8) /\
  node_ok (NInner 3 (2 ^ 100) 4 5) /\ node_ok (NLeaf (mkLeaf 1 2 (2 ^ 90) 55 10 6)).
Proof. unfold event_ok, node_ok, encodes, wf_key. repeat split; repeat (apply Forall2_cons; [vm_compute; split; [discriminate|reflexivity]|]); apply Forall2_nil. Qed.

(** C43: what InitializeMarket writes over blank accounts reads as an empty queue and an empty book of the size that fits. *)
Theorem C43_blank_request_queue b : all_zero b = true -> (length b mod 8 = 4)%nat -> (44 <= length b)%nat -> view (init_req_q b) = DReqQ (0, 0).
Proof. exact (init_req_view b). Qed.
Print Assumptions C43_blank_request_queue.
Theorem C43_blank_event_queue b : all_zero b = true -> (length b mod 8 = 4)%nat -> (44 <= length b)%nat ->
  view (init_event_q b) = DEventQ (mkQueue 0 0 0 (repeat blank_event (Z.to_nat (event_slots (Z.of_nat (length b)))))).
Proof. exact (init_event_view b). Qed.
Print Assumptions C43_blank_event_queue.
Theorem C43_blank_book sd b : all_zero b = true -> (length b mod 8 = 4)%nat -> (52 <= length b)%nat ->
  view (init_book sd b) = DSlab sd (slab_new (Z.to_nat (slab_slots (Z.of_nat (length b))))).
Proof. exact (init_book_view sd b). Qed.
Print Assumptions C43_blank_book.
Example C43_blank_nonvacuous : all_zero (repeat 0 7252) = true /\ (length (repeat 0 7252) mod 8 = 4)%nat /\ slab_slots 7252 = 100.
Proof. vm_compute. auto. Qed.

(** C43: where clients find each number of a market and of an open-orders account. *)
Theorem C43_market_offsets b allow m : b_market b allow = Ok m ->
  m_flags m = num b 5 8 /\ m_own m = key_unle b 13 /\ m_nonce m = num b 45 8 /\ m_coin_mint m = key_unle b 53 /\ m_pc_mint m = key_unle b 85 /\
  m_coin_vault m = key_unle b 117 /\ m_coin_deposits m = num b 149 8 /\ m_coin_fees m = num b 157 8 /\ m_pc_vault m = key_unle b 165 /\ m_pc_deposits m = num b 197 8 /\
  m_pc_fees m = num b 205 8 /\ m_dust m = num b 213 8 /\ m_req_q m = key_unle b 221 /\ m_event_q m = key_unle b 253 /\ m_bids m = key_unle b 285 /\ m_asks m = key_unle b 317 /\
  m_coin_lot m = num b 349 8 /\ m_pc_lot m = num b 357 8 /\ m_fee_rate m = num b 365 8 /\ m_rebates m = num b 373 8 /\
  (length b = 1476%nat -> m_oo_auth m = key_unle b 381 /\ m_prune_auth m = key_unle b 413 /\ m_crank_auth m = key_unle b 445).
Proof. exact (market_offsets b allow m). Qed.
Print Assumptions C43_market_offsets.
Theorem C43_orders_offsets b o : b_orders b = Ok o ->
  oo_flags o = num b 5 8 /\ oo_market o = key_unle b 13 /\ oo_owner o = key_unle b 45 /\ oo_coin_free o = num b 77 8 /\ oo_coin_total o = num b 85 8 /\
  oo_pc_free o = num b 93 8 /\ oo_pc_total o = num b 101 8 /\ oo_free_bits o = num b 109 16 /\ oo_bid_bits o = num b 125 16 /\
  (forall i, (i < 128)%nat -> nth i (oo_orders o) 0 = num b (141 + 16 * i) 16 /\ nth i (oo_cids o) 0 = num b (2189 + 8 * i) 8) /\ oo_rebates o = num b 3213 8.
Proof. exact (orders_offsets b o). Qed.
Print Assumptions C43_orders_offsets.
Example C43_offsets_nonvacuous : exists m, b_market a_market false = Ok m /\ m_coin_lot m = 100 /\ num a_market 349 8 = 100.
Proof. exists a_market_state. vm_compute. auto. Qed.
