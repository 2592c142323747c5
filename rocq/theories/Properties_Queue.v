(** Properties of queues, stored records and order ids (C09, C10, C12). *)
From Verif Require Import Base Fees Queue QueueSpec QueueProofs Codec CodecProofs WireSpec.

(** C09: any operation sequence on an empty ring buffer (of any length an account can have)
    gives the outputs and contents of a plain FIFO list, and the header's sequence counter is the
    number of items popped so far plus the number still stored (modulo 2^64). *)
Theorem C09_fifo : forall (A : Type) (buf : list A) (ops : list (@qop A)),
  zlen buf < 9223372036854775808 -> Forall qop_ok ops ->
  exists q', qrun (q_blank buf) ops = Ok (q', snd (lrun (zlen buf) [] ops)) /\
             q_iter q' = Ok (fst (lrun (zlen buf) [] ops)) /\
             (q_seq q' - (popped ops (snd (lrun (zlen buf) [] ops)) + zlen (fst (lrun (zlen buf) [] ops)))) mod B64 = 0.
Proof. intros A. exact fifo. Qed.
Print Assumptions C09_fifo.
Example C09_nonvacuous :
  let ops := [QPush 1; QPush 2; QPop; QPush 3; QPush 4; QPop; QPush 5; QRevert 1; QIter; QPop; QPop] in
  Forall qop_ok ops /\
  snd (lrun 2 [] ops) = [QPushed; QPushed; QItem (Some 1); QPushed; QFull; QItem (Some 2); QPushed; QReverted;
                         QItems [3]; QItem (Some 3); QItem None].
Proof. split; [repeat constructor; cbn; lia|vm_compute; reflexivity]. Qed.

(** C10: records decode to what was written, and a decoded record says exactly what is stored. *)
Theorem C10_event_roundtrip : forall v, event_as_view (event_new v) = Ok v.
Proof. exact event_roundtrip. Qed.
Print Assumptions C10_event_roundtrip.
Theorem C10_request_roundtrip : forall v,
  match v with RqNew _ _ _ _ _ max_coin _ _ _ _ => max_coin <> 0 | _ => True end ->
  request_as_view (request_new v) = Ok v.
Proof. exact request_roundtrip. Qed.
Print Assumptions C10_request_roundtrip.
Theorem C10_event_decode_faithful : forall e v, 0 <= e_flags e < 256 -> event_as_view e = Ok v ->
  match v with
  | EvFill sd maker paid received fee oid owner slot t cid =>
      e = mkEvent (1 + bid_bit sd + if_bit maker 8) slot (tier_number t) received paid fee oid owner cid
  | EvOut sd release unlocked still oid owner slot cid =>
      (e_flags e = 2 + bid_bit sd + if_bit release 16 \/ e_flags e = bid_bit sd + if_bit release 16) /\
      e_slot e = slot /\ e_released e = unlocked /\ e_paid e = still /\ e_oid e = oid /\
      e_owner e = owner /\ e_cid e = cid
  end.
Proof. exact event_decode_faithful. Qed.
Print Assumptions C10_event_decode_faithful.
Theorem C10_request_decode_faithful : forall r v, 0 <= r_flags r < 256 -> request_as_view r = Ok v ->
  match v with
  | RqNew sd ot slot t oid qty pc owner cid st =>
      qty <> 0 /\
      r = mkRequest (1 + bid_bit sd + match ot with PostOnly => 8 | ImmediateOrCancel => 16 | Limit => 0 end)
                    slot (tier_number t) (self_number st) qty pc oid owner cid
  | RqCancel sd oid cancel_id slot owner cid =>
      r_flags r = 2 + bid_bit sd /\ r_slot r = slot /\ r_qty r = cancel_id /\ r_oid r = oid /\
      r_owner r = owner /\ r_cid r = cid
  end.
Proof. exact request_decode_faithful. Qed.
Print Assumptions C10_request_decode_faithful.
(** What is stored for each event. *)
Theorem C10_event_written : forall v, event_new v =
  match v with
  | EvFill sd maker paid received fee oid owner slot t cid => mkEvent (1 + bid_bit sd + if_bit maker 8) slot (tier_number t) received paid fee oid owner cid
  | EvOut sd release unlocked still oid owner slot cid => mkEvent (2 + bid_bit sd + if_bit release 16) slot 0 unlocked still 0 oid owner cid
  end.
Proof. exact event_written. Qed.
Print Assumptions C10_event_written.
Theorem C10_request_written : forall v, request_new v =
  match v with
  | RqNew sd ot slot t oid qty pc owner cid st => mkRequest (1 + bid_bit sd + match ot with PostOnly => 8 | ImmediateOrCancel => 16 | Limit => 0 end) slot (tier_number t) (self_number st) qty pc oid owner cid
  | RqCancel sd oid cancel_id slot owner cid => mkRequest (2 + bid_bit sd) slot 0 0 cancel_id 0 oid owner cid
  end.
Proof. exact request_written. Qed.
Print Assumptions C10_request_written.
(** The stronger claim "only flag bytes produced by the writer are accepted" is false: a blank
    record (flag byte 0, written by nobody) reads as an out event. *)
Theorem C10_only_written_flags_refuted : exists e v, event_as_view e = Ok v /\
  forall v', e_flags e <> e_flags (event_new v').
Proof.
  exists (mkEvent 0 0 0 0 0 0 0 0 0), (EvOut Ask false 0 0 0 0 0 0). split; [reflexivity|].
  intros [[] [] ? ? ? ? ? ? ? ?|[] [] ? ? ? ? ? ?]; discriminate.
Qed.
Print Assumptions C10_only_written_flags_refuted.
Example C10_nonvacuous :
  event_as_view (mkEvent 13 3 2 40 50 6 77 88 9) = Ok (EvFill Bid true 50 40 6 77 88 3 SRM3 9) /\
  event_as_view (mkEvent 11 3 2 40 50 6 77 88 9) = Err EAssert /\
  request_as_view (mkRequest 21 3 2 1 40 50 77 88 9) = Ok (RqNew Bid ImmediateOrCancel 3 SRM3 77 40 50 88 9 CancelProvide).
Proof. repeat split; reflexivity. Qed.

(** C12: ids of any two submissions [i < j] of any sequence of submissions, as long as the
    sequence counter does not wrap. *)
Theorem C12_order_ids : forall next subs i j pi si pj sj a b,
  0 <= next -> next + zlen subs <= B64 -> Forall (fun x => u64 (fst x)) subs ->
  nth_error subs i = Some (pi, si) -> nth_error subs j = Some (pj, sj) -> (i < j)%nat ->
  nth_error (fst (submit next subs)) i = Some a -> nth_error (fst (submit next subs)) j = Some b ->
  u128 a /\ a / B64 = pi /\ b / B64 = pj /\
  (si = sj -> a <> b) /\
  (next + zlen subs <= 9223372036854775808 -> a <> b) /\
  (si = Bid -> sj = Bid -> (b < a <-> pj <= pi)) /\
  (si = Ask -> sj = Ask -> (a < b <-> pi <= pj)).
Proof. exact order_id_facts. Qed.
Print Assumptions C12_order_ids.
Example C12_nonvacuous :
  fst (submit 5 [(100, Bid); (100, Bid); (90, Ask); (100, Ask)]) =
   [100 * B64 + (B64 - 6); 100 * B64 + (B64 - 7); 90 * B64 + 7; 100 * B64 + 8].
Proof. reflexivity. Qed.
(** Across sides ids can coincide once the counter has passed 2^63. *)
Theorem C12_distinct_across_sides_refuted : exists s1 s2 p, u64 s1 /\ u64 s2 /\ s1 < s2 /\ u64 p /\
  fst (gen_order_id s1 p Bid) = fst (gen_order_id s2 p Ask).
Proof.
  exists 9223372036854775807, 9223372036854775808, 7. unfold u64. repeat split; try lia. 
Qed.
Print Assumptions C12_distinct_across_sides_refuted.
