(** Round trips of the stored records and the exact set of accepted flag bytes. *)
From Verif Require Import Base BaseProofs Fees Codec Queue QueueProofs.

Lemma tier_roundtrip t : tier_of_u8 (tier_to_u8 t) = Some t.
Proof. destruct t; reflexivity. Qed.
Lemma tier_of_u8_inv z t : tier_of_u8 z = Some t -> z = tier_to_u8 t.
Proof.
  unfold tier_of_u8. repeat (match goal with |- context[if ?c then _ else _] => destruct c eqn:? end;
    [intros H; inversion H; subst; cbn; lia|]). discriminate.
Qed.
Lemma st_of_u8_inv z t : st_of_u8 z = Some t -> z = st_to_u8 t.
Proof.
  unfold st_of_u8. repeat (match goal with |- context[if ?c then _ else _] => destruct c eqn:? end;
    [intros H; inversion H; subst; cbn; lia|]). discriminate.
Qed.

Lemma event_roundtrip v : event_as_view (event_new v) = Ok v.
Proof.
  destruct v as [sd mk a b c d o s t i|sd r a b d o s i].
  - destruct sd, mk, t; reflexivity.
  - destruct sd, r; reflexivity.
Qed.
Lemma request_roundtrip v :
  match v with RqNew _ _ _ _ _ q _ _ _ _ => q <> 0 | _ => True end ->
  request_as_view (request_new v) = Ok v.
Proof.
  destruct v as [sd ot s t o q p w i st|sd o c s w i]; intros H.
  - unfold request_as_view. cbn [request_new r_flags r_tier r_st r_qty r_slot r_oid r_pc r_owner r_cid].
    rewrite tier_roundtrip. destruct sd, ot, st; cbn; replace (q =? 0) with false by lia; reflexivity.
  - destruct sd; reflexivity.
Qed.

Definition bytes : list Z := map Z.of_nat (seq 0 256).
Lemma bytes_all f : 0 <= f < 256 -> In f bytes.
Proof. intros. unfold bytes. apply in_map_iff. exists (Z.to_nat f). rewrite in_seq. lia. Qed.

(** What each flag byte of an event decodes to. *)
Inductive ev_class := KFill (sd : side) (maker : bool) | KOut (sd : side) (release : bool) | KErr | KPanic.
Definition ev_classify (f : Z) : ev_class :=
  if f =? 1 then KFill Ask false else if f =? 5 then KFill Bid false else
  if f =? 9 then KFill Ask true else if f =? 13 then KFill Bid true else
  if (f =? 2) || (f =? 0) then KOut Ask false else if (f =? 6) || (f =? 4) then KOut Bid false else
  if (f =? 18) || (f =? 16) then KOut Ask true else if (f =? 22) || (f =? 20) then KOut Bid true else
  if f <? 32 then KErr else KPanic.
Definition ev_of_class (k : ev_class) (e : event) : res event_view :=
  match k with
  | KFill sd mk => match tier_of_u8 (e_tier e) with
                   | Some t => Ok (EvFill sd mk (e_paid e) (e_released e) (e_fee e) (e_oid e) (e_owner e) (e_slot e) t (e_cid e))
                   | None => Err EAssert
                   end
  | KOut sd r => Ok (EvOut sd r (e_released e) (e_paid e) (e_oid e) (e_owner e) (e_slot e) (e_cid e))
  | KErr => Err EAssert
  | KPanic => Panic
  end.
Definition is_bid (s : side) : bool := match s with Bid => true | Ask => false end.
Definition ev_check (f : Z) : bool :=
  match ev_classify f with
  | KPanic => negb (subset f 31)
  | KFill sd mk => subset f 31 && has f 1 && subset f 13 && eqb (has f 4) (is_bid sd) && eqb (has f 8) mk
  | KOut sd r => subset f 31 && negb (has f 1) && subset f 22 && eqb (has f 4) (is_bid sd) && eqb (has f 16) r
  | KErr => subset f 31 && (if has f 1 then negb (subset f 13) else negb (subset f 22))
  end.
Lemma ev_check_all : forallb ev_check bytes = true.
Proof. vm_compute. reflexivity. Qed.
Lemma event_decode_exact e : 0 <= e_flags e < 256 ->
  event_as_view e = ev_of_class (ev_classify (e_flags e)) e.
Proof.
  intros H. apply bytes_all in H. pose proof ev_check_all as C. rewrite forallb_forall in C. specialize (C _ H).
  unfold ev_check in C. unfold event_as_view. change (Z.lor (Z.lor EF_Fill EF_Bid) EF_Maker) with 13.
  change (Z.lor (Z.lor EF_Out EF_Bid) EF_Release) with 22.
  change EF_Fill with 1. change EF_Bid with 4. change EF_Maker with 8. change EF_Release with 16. cbv zeta.
  set (f := e_flags e) in *. unfold ev_of_class. destruct (ev_classify f) as [sd mk|sd r| |].
  - rewrite !andb_true_iff, !eqb_true_iff in C. destruct C as ((((C1 & C2) & C3) & C4) & C5).
    rewrite C1, C2, C3, C4, C5. cbn [passert check rbind]. destruct (tier_of_u8 (e_tier e)); [|reflexivity]. destruct sd; reflexivity.
  - rewrite !andb_true_iff, !eqb_true_iff, negb_true_iff in C. destruct C as ((((C1 & C2) & C3) & C4) & C5).
    rewrite C1, C2, C3, C4, C5. cbn [passert check rbind]. destruct sd; reflexivity.
  - rewrite andb_true_iff in C. destruct C as (C1 & C2). rewrite C1. cbn [passert rbind].
    destruct (has f 1); rewrite negb_true_iff in C2; rewrite C2; reflexivity.
  - rewrite negb_true_iff in C. rewrite C. reflexivity.
Qed.

Inductive rq_class := RKNew (sd : side) (ot : order_type) | RKCancel (sd : side) | RKErr | RKPanic.
Definition rq_classify (f : Z) : rq_class :=
  if f =? 1 then RKNew Ask Limit else if f =? 5 then RKNew Bid Limit else
  if f =? 9 then RKNew Ask PostOnly else if f =? 13 then RKNew Bid PostOnly else
  if f =? 17 then RKNew Ask ImmediateOrCancel else if f =? 21 then RKNew Bid ImmediateOrCancel else
  if f =? 2 then RKCancel Ask else if f =? 6 then RKCancel Bid else
  if (f =? 25) || (f =? 29) || (63 <? f) then RKPanic else RKErr.
Definition rq_of_class (k : rq_class) (r : request) : res request_view :=
  match k with
  | RKNew sd ot =>
      match tier_of_u8 (r_tier r), st_of_u8 (r_st r) with
      | Some t, Some st => if r_qty r =? 0 then Panic
          else Ok (RqNew sd ot (r_slot r) t (r_oid r) (r_qty r) (r_pc r) (r_owner r) (r_cid r) st)
      | _, _ => Err EAssert
      end
  | RKCancel sd => Ok (RqCancel sd (r_oid r) (r_qty r) (r_slot r) (r_owner r) (r_cid r))
  | RKErr => Err EAssert
  | RKPanic => Panic
  end.
Definition rq_check (f : Z) : bool :=
  match rq_classify f with
  | RKPanic => negb (subset f 63) || (has f 1 && subset f 29 && has f 8 && has f 16)
  | RKNew sd ot => subset f 63 && has f 1 && subset f 29 && eqb (has f 4) (is_bid sd) &&
      match ot with PostOnly => has f 8 && negb (has f 16) | ImmediateOrCancel => negb (has f 8) && has f 16
                  | Limit => negb (has f 8) && negb (has f 16) end
  | RKCancel sd => subset f 63 && negb (has f 1) && has f 2 && subset f 6 && eqb (has f 4) (is_bid sd)
  | RKErr => subset f 63 && (if has f 1 then negb (subset f 29) else negb (has f 2) || negb (subset f 6))
  end.
Lemma rq_check_all : forallb rq_check bytes = true.
Proof. vm_compute. reflexivity. Qed.
Lemma request_decode_exact r : 0 <= r_flags r < 256 ->
  request_as_view r = rq_of_class (rq_classify (r_flags r)) r.
Proof.
  intros H. apply bytes_all in H. pose proof rq_check_all as C. rewrite forallb_forall in C. specialize (C _ H).
  unfold rq_check in C. unfold request_as_view.
  change (Z.lor (Z.lor (Z.lor RF_New RF_Bid) RF_PostOnly) RF_Ioc) with 29. change (Z.lor RF_Cancel RF_Bid) with 6.
  change RF_New with 1. change RF_Bid with 4. change RF_PostOnly with 8. change RF_Ioc with 16. change RF_Cancel with 2.
  cbv zeta. set (f := r_flags r) in *. unfold rq_of_class. destruct (rq_classify f) as [sd ot|sd| |].
  - rewrite !andb_true_iff, !eqb_true_iff in C. destruct C as ((((C1 & C2) & C3) & C4) & C5).
    rewrite C1, C2, C3, C4. cbn [passert check rbind].
    assert (E : match has f 8, has f 16 with true, false => Ok PostOnly | false, true => Ok ImmediateOrCancel
             | false, false => Ok Limit | true, true => Panic end = Ok ot).
    { destruct ot, (has f 8), (has f 16); try discriminate; reflexivity. }
    rewrite E. cbn [rbind]. destruct (tier_of_u8 (r_tier r)); [|reflexivity].
    destruct (st_of_u8 (r_st r)); [|reflexivity]. cbn [ok_or rbind]. destruct (r_qty r =? 0); [reflexivity|]. destruct sd; reflexivity.
  - rewrite !andb_true_iff, !eqb_true_iff, negb_true_iff in C. destruct C as ((((C1 & C2) & C3) & C4) & C5).
    rewrite C1, C2, C3, C4, C5. cbn [passert check rbind]. destruct sd; reflexivity.
  - rewrite andb_true_iff in C. destruct C as (C1 & C2). rewrite C1. cbn [passert rbind].
    destruct (has f 1); [rewrite negb_true_iff in C2; rewrite C2; reflexivity|].
    destruct (has f 2); [|reflexivity]. cbn in C2. rewrite negb_true_iff in C2. cbn [check rbind]. rewrite C2. reflexivity.
  - rewrite orb_true_iff, !andb_true_iff, negb_true_iff in C. destruct C as [C|(((C1 & C2) & C3) & C4)].
    + rewrite C. reflexivity.
    + destruct (subset f 63); [|reflexivity]. rewrite C1, C2, C3, C4. reflexivity.
Qed.

(** Ids *)
Fixpoint submit (next : Z) (subs : list (Z * side)) : list Z * Z :=
  match subs with
  | [] => ([], next)
  | (p, sd) :: r => let (i, n) := gen_order_id next p sd in let (is, n') := submit n r in (i :: is, n')
  end.

Lemma submit_nth subs : forall next k p sd, 0 <= next -> next + zlen subs <= B64 ->
  Forall (fun x => u64 (fst x)) subs -> nth_error subs k = Some (p, sd) ->
  nth_error (fst (submit next subs)) k = Some (p * B64 + seq_part sd (next + Z.of_nat k)).
Proof.
  induction subs as [|[p0 sd0] subs IH]; intros next k p sd Hn Hl HF Hk; [destruct k; discriminate|].
  rewrite zlen_cons in Hl. pose proof (zlen_nonneg subs). inversion HF as [|? ? H1 H2]; subst. cbn [submit fst] in *.
  rewrite gen_order_id_spec by (unfold u64 in *; lia).
  destruct k as [|k].
  - cbn in Hk. inversion Hk; subst. destruct (submit _ subs). cbn. rewrite Z.add_0_r. reflexivity.
  - cbn in Hk. assert (nth_error subs k <> None) as Hne by congruence. apply nth_error_Some in Hne.
    unfold zlen in *. rewrite wadd_small by lia.
    specialize (IH (next + 1) k p sd ltac:(lia) ltac:(lia) H2 Hk).
    destruct (submit (next + 1) subs) as [is n']. cbn [fst nth_error] in *. rewrite IH. replace (next + Z.of_nat (S k)) with (next + 1 + Z.of_nat k) by lia. reflexivity.
Qed.

Lemma order_id_facts next subs i j pi si pj sj a b :
  0 <= next -> next + zlen subs <= B64 -> Forall (fun x => u64 (fst x)) subs ->
  nth_error subs i = Some (pi, si) -> nth_error subs j = Some (pj, sj) -> (i < j)%nat ->
  nth_error (fst (submit next subs)) i = Some a -> nth_error (fst (submit next subs)) j = Some b ->
  u128 a /\ a / B64 = pi /\ b / B64 = pj /\
  (si = sj -> a <> b) /\
  (next + zlen subs <= 9223372036854775808 -> a <> b) /\
  (si = Bid -> sj = Bid -> (b < a <-> pj <= pi)) /\
  (si = Ask -> sj = Ask -> (a < b <-> pi <= pj)).
Proof.
  intros Hn Hl HF Hi Hj Hij Ha Hb.
  rewrite (submit_nth _ _ _ _ _ Hn Hl HF Hi) in Ha. rewrite (submit_nth _ _ _ _ _ Hn Hl HF Hj) in Hb.
  rewrite Forall_forall in HF.
  pose proof (HF _ (nth_error_In _ _ Hi)) as Ui. pose proof (HF _ (nth_error_In _ _ Hj)) as Uj.
  unfold u64 in *. cbn [fst] in *.
  assert (nth_error subs j <> None) as Hjl by congruence. apply nth_error_Some in Hjl. unfold zlen in *.
  remember (next + Z.of_nat i) as x. remember (next + Z.of_nat j) as y.
  assert (Hx : 0 <= x < y) by lia. assert (Hy : y < B64) by lia.
  inversion Ha; subst a. inversion Hb; subst b. clear Ha Hb.
  assert (S1 : forall sd z, 0 <= z < B64 -> 0 <= seq_part sd z < B64) by (intros [] z Hz; unfold seq_part; lia).
  pose proof (S1 si x ltac:(lia)). pose proof (S1 sj y ltac:(lia)).
  split; [unfold u128; nia|].
  split; [rewrite Z.div_add_l, Z.div_small by lia; lia|].
  split; [rewrite Z.div_add_l, Z.div_small by lia; lia|].
  unfold seq_part in *.
  split; [intros ->; destruct sj; lia|].
  split; [intros; destruct si, sj; lia|].
  split; intros -> ->; lia.
Qed.

(** * Statements used by Properties_Queue.v *)
Definition bid_bit (s : side) : Z := match s with Bid => 4 | Ask => 0 end.
Definition if_bit (b : bool) (v : Z) : Z := if b then v else 0.

Lemma event_decode_faithful e v : 0 <= e_flags e < 256 -> event_as_view e = Ok v ->
  match v with
  | EvFill sd maker paid received fee oid owner slot t cid =>
      e = mkEvent (1 + bid_bit sd + if_bit maker 8) slot (tier_to_u8 t) received paid fee oid owner cid
  | EvOut sd release unlocked still oid owner slot cid =>
      (e_flags e = 2 + bid_bit sd + if_bit release 16 \/ e_flags e = bid_bit sd + if_bit release 16) /\
      e_slot e = slot /\ e_released e = unlocked /\ e_paid e = still /\ e_oid e = oid /\
      e_owner e = owner /\ e_cid e = cid
  end.
Proof.
  intros H E. rewrite (event_decode_exact _ H) in E. destruct e as [f s ti a b c o w i].
  cbn [e_flags e_slot e_tier e_released e_paid e_fee e_oid e_owner e_cid ev_of_class] in *.
  unfold ev_classify in E.
  repeat match type of E with context[if ?c then _ else _] => destruct c eqn:? end;
    cbn [ev_of_class e_flags e_slot e_tier e_released e_paid e_fee e_oid e_owner e_cid] in E; try discriminate;
    try (destruct (tier_of_u8 ti) eqn:T; [apply tier_of_u8_inv in T|discriminate]);
    inversion E; subst; cbn [bid_bit if_bit].
  all: try (f_equal; lia).
  all: repeat split; lia.
Qed.
Lemma request_decode_faithful r v : 0 <= r_flags r < 256 -> request_as_view r = Ok v ->
  match v with
  | RqNew sd ot slot t oid qty pc owner cid st =>
      qty <> 0 /\
      r = mkRequest (1 + bid_bit sd + match ot with PostOnly => 8 | ImmediateOrCancel => 16 | Limit => 0 end)
                    slot (tier_to_u8 t) (st_to_u8 st) qty pc oid owner cid
  | RqCancel sd oid cancel_id slot owner cid =>
      r_flags r = 2 + bid_bit sd /\ r_slot r = slot /\ r_qty r = cancel_id /\ r_oid r = oid /\
      r_owner r = owner /\ r_cid r = cid
  end.
Proof.
  intros H E. rewrite (request_decode_exact _ H) in E. destruct r as [f s ti st q p o w i].
  cbn [r_flags r_slot r_tier r_st r_qty r_pc r_oid r_owner r_cid] in *.
  unfold rq_classify in E.
  repeat match type of E with context[rq_of_class (if ?c then _ else _)] => destruct c eqn:? end;
    cbn [rq_of_class r_flags r_slot r_tier r_st r_qty r_pc r_oid r_owner r_cid] in E; try discriminate.
  all: try (destruct (tier_of_u8 ti) eqn:T; [apply tier_of_u8_inv in T|discriminate];
            destruct (st_of_u8 st) eqn:S; [apply st_of_u8_inv in S|discriminate];
            destruct (q =? 0) eqn:Q; [discriminate|]).
  all: inversion E; subst; cbn [bid_bit].
  all: try (split; [lia|]; f_equal; lia).
  all: repeat split; lia.
Qed.
(** What is stored. *)
Lemma event_written v : event_new v =
  match v with
  | EvFill sd maker paid received fee oid owner slot t cid => mkEvent (1 + bid_bit sd + if_bit maker 8) slot (tier_to_u8 t) received paid fee oid owner cid
  | EvOut sd release unlocked still oid owner slot cid => mkEvent (2 + bid_bit sd + if_bit release 16) slot 0 unlocked still 0 oid owner cid
  end.
Proof. destruct v as [[] []|[] []]; reflexivity. Qed.
Lemma request_written v : request_new v =
  match v with
  | RqNew sd ot slot t oid qty pc owner cid st => mkRequest (1 + bid_bit sd + match ot with PostOnly => 8 | ImmediateOrCancel => 16 | Limit => 0 end) slot (tier_to_u8 t) (st_to_u8 st) qty pc oid owner cid
  | RqCancel sd oid cancel_id slot owner cid => mkRequest (2 + bid_bit sd) slot 0 0 cancel_id 0 oid owner cid
  end.
Proof. destruct v as [[] []|[]]; reflexivity. Qed.
