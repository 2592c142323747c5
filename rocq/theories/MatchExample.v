(** A concrete market with two resting asks, to show the hypotheses of the matching theorems met. *)
From Verif Require Import Base BaseProofs Fees Critbit CritbitProofs CritbitSlab CritbitOps ListSum
  Queue QueueSpec QueueProofs Codec CodecProofs Market Matching MatchSteps MatchRefine MatchAsk MatchRun Ledger LedgerSteps
  MatchSpec MatchOrder MatchFacts.

Definition ex_mkt : market := mkMarket 3 1 0 2 3 4 1000 0 5 5000 0 0 6 7 8 9 10 2 0 0 0 0 0.
Definition ex_blank : event := mkEvent 0 0 0 0 0 0 0 0 0.
Definition ex0 : obs := mkObs (slab_new 3) (slab_new 3) ex_mkt (q_blank (repeat ex_blank 20)).
Definition ex_after (r : res (obs * proceeds * remaining)) : obs := match r with Ok (o, _, _) => o | _ => ex0 end.
Definition ex_id (price n : Z) : Z := price * B64 + n.
Definition ex_r1 := new_order ex0 Ask Limit (ex_id 5 0) 77 0 TBase 4 0 100 DecrementTake 5.
Definition ex1 : obs := Eval vm_compute in ex_after ex_r1.
Definition ex_r2 := new_order ex1 Ask Limit (ex_id 6 1) 88 3 TBase 3 0 101 DecrementTake 5.
Definition ex2 : obs := Eval vm_compute in ex_after ex_r2.
Definition ex_ask1 : leaf := mkLeaf 0 0 (ex_id 5 0) 77 4 100.
Definition ex_ask2 : leaf := mkLeaf 3 0 (ex_id 6 1) 88 3 101.
Definition exA : astate := mkA [] [ex_ask1; ex_ask2] [].

Lemma event_new_inj a b : event_new a = event_new b -> a = b.
Proof. intros H. pose proof (event_roundtrip a) as A. rewrite H, event_roundtrip in A. congruence. Qed.
Lemma map_event_inj a : forall b, map event_new a = map event_new b -> a = b.
Proof.
  induction a as [|x a IH]; intros [|y b] H; try discriminate; [reflexivity|].
  cbn [map] in H. f_equal; [apply event_new_inj; congruence|apply IH; congruence].
Qed.
(** The list-level state is determined by the stored one. *)
Lemma rep_is o A B S E : rep o A -> book (ob_bids o) = B -> book (ob_asks o) = S -> q_list (ob_eq o) = map event_new E ->
  rep o (mkA B S E).
Proof. intros [r1 r2 r3 r4 r5 r6] E1 E2 E3. constructor; auto. Qed.
Lemma rep_step o A sd ot id owner slot t qty pc cid st limit o' pr rem :
  rep o A -> ready o A sd ot id owner qty pc st -> owner <> 0 ->
  new_order o sd ot id owner slot t qty pc cid st limit = Ok (o', pr, rem) -> exists A', rep o' A'.
Proof.
  intros R RD NZ H. destruct (result _ _ _ _ _ _ _ _ _ _ _ _ _ _ _ _ R RD H (or_introl NZ)) as (_ & A' & tr & q' & n & E & F & RR & X).
  exists A'. apply X.
Qed.

Ltac ex_ready := constructor; first
  [ solve [cbn; lia] | solve [intros; discriminate] | solve [unfold mkt_u64, u64; cbn; lia] | solve [unfold u128, ex_id; cbn; lia]
  | solve [vm_compute; split; congruence] | solve [vm_compute; reflexivity]
  | solve [intros _; cbn; lia]
  | solve [intros _; split; [reflexivity|split; [intros _; vm_compute; reflexivity|vm_compute; reflexivity]]]
  | solve [cbn; intros l Hl; repeat (destruct Hl as [<-|Hl] || destruct Hl); vm_compute; congruence]
  | solve [constructor; cbn; intros l Hl; repeat (destruct Hl as [<-|Hl] || destruct Hl);
     unfold bid_fit, ask_fit, bid_val, ask_val, tier_ok; vm_compute; repeat split; congruence]
  | idtac ].
Lemma ex_rep0 : rep ex0 (mkA [] [] []).
Proof.
  destruct (slab_new_ok 3) as [S1 S2].
  destruct (blank_ok (repeat ex_blank 20)) as [Q1 Q2]; [vm_compute; reflexivity|].
  constructor; cbn [ex0 ob_bids ob_asks ob_eq a_bids a_asks a_evs]; assumption.
Qed.
Lemma ex_rep : rep ex2 exA.
Proof.
  assert (R1 : rep ex1 (mkA [] [ex_ask1] [])).
  { destruct (rep_step ex0 (mkA [] [] []) Ask Limit (ex_id 5 0) 77 0 TBase 4 0 100 DecrementTake 5 ex1 pr_zero None) as [A' R'].
    - apply ex_rep0.
    - ex_ready.
    - discriminate.
    - vm_compute. reflexivity.
    - apply (rep_is _ A'); [assumption|vm_compute; reflexivity..]. }
  destruct (rep_step ex1 (mkA [] [ex_ask1] []) Ask Limit (ex_id 6 1) 88 3 TBase 3 0 101 DecrementTake 5 ex2 pr_zero None) as [A' R'].
  - exact R1.
  - ex_ready.
  - discriminate.
  - vm_compute. reflexivity.
  - apply (rep_is _ A'); [assumption|vm_compute; reflexivity..].
Qed.
