(** When a new order is refused because the event queue is full, the events it would report do not fit. *)
From Verif Require Import Base BaseProofs Fees FeesSpec FeesProofs Critbit CritbitProofs CritbitSlab CritbitOps
  CritbitSpec CritbitRefine ListSum Queue QueueSpec QueueProofs Codec Market Matching MatchSteps MatchRefine
  MatchAsk MatchBid MatchRun Ledger LedgerSteps LedgerSums MatchRoom MatchSpec LedgerRun MatchReport MatchOrder MatchFacts
  Slots Core CoreInv CoreOrder CoreNew PlaceSpec CorePlace MatchBlame MatchTwin.

(** The same events in a queue with [n] free places. *)
Definition longer (q : queue event) (n : Z) : queue event := mkQueue 0 (q_count q) (q_seq q) (q_list q ++ repeat (mkEvent 0 0 0 0 0 0 0 0 0) (Z.to_nat n)).
Lemma longer_ok q n : q_ok q -> 0 <= n -> q_count q + n < 9223372036854775808 ->
  zlen (q_buf (longer q n)) = q_count q + n /\ q_ok (longer q n) /\ q_list (longer q n) = q_list q.
Proof.
  intros Q N B. pose proof (q_list_len q Q) as LEN. pose proof (qk_count _ Q) as CO.
  assert (ZL : zlen (q_buf (longer q n)) = q_count q + n).
  { cbn [longer q_buf]. unfold zlen in *. rewrite app_length, repeat_length. lia. }
  split; [exact ZL|]. split; [constructor; rewrite ?ZL; cbn [longer q_head q_count]; lia|].
  unfold q_list at 1. cbn [longer q_head q_count q_buf]. cbn [Z.to_nat skipn].
  rewrite <- app_assoc, firstn_app. replace (Z.to_nat (q_count q) - length (q_list q))%nat with 0%nat by (unfold zlen in LEN; lia).
  cbn [firstn]. rewrite app_nil_r. apply firstn_all2. unfold zlen in LEN. lia.
Qed.

Theorem order_full o A sd ot id owner slot t qty pc cid st limit : rep o A -> ready o A sd ot id owner qty pc st -> owner <> 0 \/ (sd = Ask -> qty * m_coin_lot (ob_mkt o) < B64) ->
  zlen (q_buf (ob_eq o)) + 4 * (Z.of_nat limit + 1) < 9223372036854775808 ->
  new_order o sd ot id owner slot t qty pc cid st limit = Err EEventQueueFull ->
  (st = AbortTransaction /\ ot <> PostOnly /\ meets_own (book_of A (other sd)) sd (id / B64) owner qty pc (m_pc_lot (ob_mkt o)) (Z.of_nat limit)) \/
  (exists opp' own' E tr q' n,
     report (m_coin_lot (ob_mkt o)) (m_pc_lot (ob_mkt o)) (the_taker sd id owner slot t cid st) limit (ot_post_only ot) (room o A sd) (ot_post_allowed ot) qty pc
       (book_of A (other sd)) (book_of A sd) opp' own' E tr q' n /\
     zlen (q_buf (ob_eq o)) < zlen (a_evs A) + zlen E).
Proof.
  intros R RD NZ CAP H. pose proof (r_q_ok _ _ R) as QO. pose proof (qk_count _ QO) as CO.
  set (N := 4 * (Z.of_nat limit + 1)) in *.
  assert (NEED : zlen (q_buf (ob_eq o)) < zlen (a_evs A) + N).
  { destruct (order_blame o A sd ot id owner slot t qty pc cid st limit EEventQueueFull R RD H) as [(X & _)|(_ & X)]; [discriminate|].
    unfold N. unfold events_needed, most_rounds in X. pose proof (zlen_nonneg (book_of A (other sd))). destruct sd; [destruct st; [destruct (own_in_reach _ _ _ _)|..]|]; lia. }
  assert (EV : zlen (a_evs A) = q_count (ob_eq o)).
  { rewrite <- (q_list_len _ QO), (r_evs _ _ R). unfold zlen. rewrite map_length. reflexivity. }
  destruct (longer_ok (ob_eq o) N QO) as (ZL & QO' & QL); [unfold N; lia|lia|].
  set (p := set_eq o (longer (ob_eq o) N)).
  assert (TW : twins (zlen (q_buf (ob_eq o))) o p).
  { constructor; try reflexivity; unfold wide; cbn [p set_eq ob_eq]; rewrite ?ZL; cbn [longer q_count]; lia. }
  assert (RP : rep p A). { destruct R. constructor; try assumption. cbn [p set_eq ob_eq]. rewrite QL. assumption. }
  assert (RDP : ready p A sd ot id owner qty pc st) by (destruct RD; constructor; assumption).
  assert (LT : twin (zlen (q_buf (ob_eq o))) res_obs alike (new_order o sd ot id owner slot t qty pc cid st limit) (new_order p sd ot id owner slot t qty pc cid st limit))
    by exact (loop_twin (zlen (q_buf (ob_eq o))) limit o p pr_zero (params ot id owner slot t cid st) sd (ot_post_only ot) qty pc TW).
  rewrite H in LT. cbn [twin] in LT. specialize (LT eq_refl).
  destruct (new_order p sd ot id owner slot t qty pc cid st limit) as [[[o' pr] rem]|e|] eqn:HP.
  - right. destruct (LT _ eq_refl) as [_ CNT]. unfold res_obs in CNT. cbn [fst] in CNT.
    assert (NW : owner <> 0 \/ spent p sd pr < B64).
    { pose proof (new_order_result p A sd ot id owner slot t qty pc cid st limit RP RDP) as NR. rewrite HP in NR. cbn [outcome] in NR. destruct NR as (_ & _ & NB & DB & _).
      right. destruct NZ as [NZ|NZ]; [apply NB; auto|]. destruct sd; [apply NB; auto|]. unfold spent. specialize (NZ eq_refl). change (ob_mkt p) with (ob_mkt o).
      destruct RD as [r1 r2 r3 r4 r5 r6 r7 r8 r9 r10 r11 r12 r13]. assert (0 < m_coin_lot (ob_mkt o)) by auto. nia. }
    destruct (result p A sd ot id owner slot t qty pc cid st limit o' pr rem RP RDP HP NW) as (_ & A' & tr & q' & n & E & F & RR & OR).
    exists (book_of A' (other sd)), (book_of A' sd), E, tr, q', n.
    split; [exact (or_report _ _ _ _ _ _ _ _ _ _ _ _ _ _ _ _ _ _ _ _ _ _ OR)|].
    pose proof (or_rep _ _ _ _ _ _ _ _ _ _ _ _ _ _ _ _ _ _ _ _ _ _ OR) as R'. pose proof (or_evs _ _ _ _ _ _ _ _ _ _ _ _ _ _ _ _ _ _ _ _ _ _ OR) as EV'.
    rewrite <- (q_list_len _ (r_q_ok _ _ R')), (r_evs _ _ R'), EV' in CNT. unfold zlen in *. rewrite map_length, app_length in CNT. lia.
  - destruct (order_blame p A sd ot id owner slot t qty pc cid st limit e RP RDP HP) as [(_ & X)|(_ & X)]; [left; exact X|exfalso].
    cbn [p set_eq ob_eq] in X. rewrite ZL in X. unfold events_needed, most_rounds in X. pose proof (zlen_nonneg (book_of A (other sd))).
    unfold N in *. destruct sd; [destruct st; [destruct (own_in_reach _ _ _ _)|..]|]; lia.
  - exfalso. exact (order_calm _ _ _ _ _ _ _ _ _ _ _ _ _ RP RDP HP).
Qed.
