(** The same order on a longer event queue: it does the same, and where the shorter queue is full it
    ends with more events than the shorter queue holds. *)
From Verif Require Import Base BaseProofs Fees Critbit Queue QueueSpec QueueProofs Codec Market Matching MatchSteps MatchRefine MatchAsk MatchBid MatchRun MatchRoom.

(** ** Events are only added *)
Definition wide (o : obs) : Prop := 0 <= q_count (ob_eq o) <= zlen (q_buf (ob_eq o)) /\ zlen (q_buf (ob_eq o)) < B64.
Definition grows {X} (o : obs) (f : X -> obs) (r : res X) : Prop :=
  forall y, r = Ok y -> wide (f y) /\ q_count (ob_eq o) <= q_count (ob_eq (f y)).
Lemma g_ok {X} o (f : X -> obs) y : wide o -> ob_eq (f y) = ob_eq o -> grows o f (Ok y).
Proof. intros W E y' [= <-]. unfold wide in *. rewrite E. split; [exact W|lia]. Qed.
Lemma g_err {X} o (f : X -> obs) e : grows o f (Err e).
Proof. intros y H. discriminate. Qed.
Lemma g_panic {X} o (f : X -> obs) : grows o f Panic.
Proof. intros y H. discriminate. Qed.
Lemma g_pure {X Y} o (g : Y -> obs) (r : res X) k : (forall x, r = Ok x -> grows o g (k x)) -> grows o g (rbind r k).
Proof. intros H y E. apply rbind_ok in E. destruct E as (x & E1 & E2). exact (H x E1 y E2). Qed.
Lemma g_bind {X Y} o (f : X -> obs) (g : Y -> obs) (r : res X) k : grows o f r -> (forall x, wide (f x) -> grows (f x) g (k x)) -> grows o g (rbind r k).
Proof. intros H1 H2 y E. apply rbind_ok in E. destruct E as (x & E1 & E2). destruct (H1 x E1) as [W L]. destruct (H2 x W y E2) as [W' L']. split; [exact W'|lia]. Qed.
Lemma g_eq {X} o o' (f : X -> obs) r : ob_eq o' = ob_eq o -> grows o' f r -> grows o f r.
Proof. unfold grows. intros ->. auto. Qed.
Lemma wide_eq o o' : ob_eq o' = ob_eq o -> wide o -> wide o'.
Proof. unfold wide. intros ->. auto. Qed.
Definition me (o : obs) : obs := o.
Lemma emit_grows o v : wide o -> grows o me (emit o v).
Proof.
  intros ((W1 & W2) & W3) y H. unfold emit, push_back, q_full, rem_len in H.
  destruct (q_count (ob_eq o) =? zlen (q_buf (ob_eq o))) eqn:E; [discriminate|].
  destruct (zlen (q_buf (ob_eq o)) =? 0); [discriminate|]. cbn [rbind] in H. destruct (znth _ _); [|discriminate]. cbn [unwrap rbind] in H. injection H as <-.
  unfold wide, me. cbn [set_eq ob_eq q_count q_buf]. rewrite zupd_len. rewrite wadd_small by lia. lia.
Qed.
Lemma g_remove o s x : wide o -> grows o me (remove_order_by_key o s x).
Proof. intros W y H. apply remove_eq in H. unfold me. split; [eapply wide_eq; eassumption|rewrite H; lia]. Qed.
Lemma post_grows o s l : wide o -> grows o me (post_order o s l).
Proof.
  intros W. unfold post_order. apply g_pure. intros [s1 out] _. destruct out as [h old|]; [apply g_ok; [exact W|apply set_orders_eq]|].
  apply g_pure. intros [s2 ev] _. apply g_pure. intros ord _. apply g_pure. intros u _.
  eapply g_bind. { eapply g_eq; [apply set_orders_eq|]. apply emit_grows. eapply wide_eq; [apply set_orders_eq|exact W]. }
  intros o1 W1. apply g_pure. intros [s3 out2] _. destruct out2; [|apply g_panic]. apply g_ok; [exact W1|apply set_orders_eq].
Qed.
Lemma ask_finish_grows o pr p mq un ac rb cr dn : wide o -> grows o res_obs (ask_finish o pr p mq un ac rb cr dn).
Proof.
  intros W. unfold ask_finish. apply g_pure. intros pr1 _. apply g_pure. intros pr2 _. cbv zeta.
  apply g_bind with (f := me). { destruct (_ && _); [apply emit_grows; exact W|apply g_ok; [exact W|reflexivity]]. }
  intros o1 W1. unfold me in *. destruct (negb dn && _); [apply g_ok; [exact W1|reflexivity]|].
  destruct (op_post_allowed p && _ && _).
  { apply g_pure. intros _ _. eapply g_bind; [eapply g_eq; [|apply post_grows]; [reflexivity|exact W1]|]. intros o3 W3. apply g_ok; [exact W3|reflexivity]. }
  destruct (negb (is_send_take p)); [|apply g_ok; [exact W1|reflexivity]].
  apply g_pure. intros pr3 _. eapply g_bind; [eapply g_eq; [|apply emit_grows]; [reflexivity|exact W1]|]. intros o3 W3. apply g_ok; [exact W3|reflexivity].
Qed.
Lemma bid_finish_grows o pr p mq lk lim mp cr pr0 rb crossed dn : wide o -> grows o res_obs (bid_finish o pr p mq lk lim mp cr pr0 rb crossed dn).
Proof.
  intros W. unfold bid_finish. apply g_pure. intros pr1 _. apply g_pure. intros pr2 _. cbv zeta.
  apply g_bind with (f := me). { destruct (_ && negb (is_send_take p)); [apply emit_grows; exact W|apply g_ok; [exact W|reflexivity]]. }
  intros o1 W1. unfold me in *. destruct (negb dn && _ && _); [apply g_ok; [exact W1|reflexivity]|].
  apply g_pure. intros [post keep] _.
  apply g_bind with (f := fun x : obs * proceeds => fst x).
  { destruct (negb (is_send_take p)); [|apply g_ok; [exact W1|reflexivity]].
    apply g_pure. intros pr3 _. eapply g_bind; [eapply g_eq; [|apply emit_grows]; [reflexivity|exact W1]|]. intros o3 W3. apply g_ok; [exact W3|reflexivity]. }
  intros [o3 pr3] W3. cbn [fst] in *. destruct (0 <? keep); [|apply g_ok; [exact W3|reflexivity]].
  eapply g_bind; [apply post_grows; exact W3|]. intros o4 W4. apply g_ok; [exact W4|reflexivity].
Qed.
Lemma new_ask_grows o pr p q lim po : wide o -> grows o res_obs (new_ask o pr p q lim po).
Proof.
  intros W. unfold new_ask. apply g_pure. intros [h|] _; [|apply ask_finish_grows; exact W].
  apply g_pure. intros b _. apply g_pure. intros price _. cbv zeta.
  destruct (negb _ || po); [apply ask_finish_grows; exact W|]. destruct (Z.min _ _ =? 0); [apply ask_finish_grows; exact W|].
  destruct (op_owner p =? l_owner b).
  - apply g_pure. intros [cp ct] _. eapply g_bind; [apply emit_grows; exact W|]. intros o1 W1. unfold me in *.
    apply g_bind with (f := me). { destruct (_ =? 0); [apply g_remove; exact W1|apply g_ok; [exact W1|apply write_eq]]. }
    intros o2 W2. eapply g_bind; [apply emit_grows; exact W2|]. intros o3 W3. apply g_pure. intros pr1 _. apply g_ok; [exact W3|reflexivity].
  - apply g_pure. intros mt _. eapply g_bind; [apply emit_grows; exact W|]. intros o1 W1. unfold me in *.
    apply g_bind with (f := me).
    { destruct (_ =? 0); [|apply g_ok; [exact W1|apply write_eq]].
      eapply g_bind; [eapply g_eq; [|apply emit_grows]; [apply write_eq|eapply wide_eq; [apply write_eq|exact W1]]|]. intros o3 W3. apply g_remove. exact W3. }
    intros o4 W4. apply ask_finish_grows. exact W4.
Qed.
Lemma new_bid_grows o pr p q L lim po : wide o -> grows o res_obs (new_bid o pr p q L lim po).
Proof.
  intros W. unfold new_bid. apply g_pure. intros _ _. apply g_pure. intros net _. destruct (m_pc_lot (ob_mkt o) =? 0); [apply g_panic|]. cbv zeta.
  apply g_pure. intros [h|] _; [|apply bid_finish_grows; exact W].
  apply g_pure. intros b _. apply g_pure. intros price _.
  destruct (negb _ || po); [apply bid_finish_grows; exact W|]. destruct (Z.min _ _ =? 0); [apply bid_finish_grows; exact W|].
  destruct (op_owner p =? l_owner b).
  - apply g_pure. intros [ct cp] _. eapply g_bind; [apply emit_grows; exact W|]. intros o1 W1. unfold me in *.
    apply g_bind with (f := me). { match goal with |- grows _ _ (if ?c then _ else _) => destruct c end; [apply g_remove; exact W1|apply g_ok; [exact W1|apply write_eq]]. }
    intros o2 W2. match goal with |- context [if ?c then (_, _) else _] => destruct c end;
      (apply g_pure; intros pr1 _; eapply g_bind; [apply emit_grows; exact W2|]; intros o3 W3; apply g_ok; [exact W3|reflexivity]).
  - apply g_pure. intros mt _. eapply g_bind; [apply emit_grows; exact W|]. intros o1 W1. unfold me in *.
    apply g_bind with (f := me).
    { match goal with |- grows _ _ (if ?c then _ else _) => destruct c end; [|apply g_ok; [exact W1|apply write_eq]].
      eapply g_bind; [eapply g_eq; [|apply emit_grows]; [apply write_eq|eapply wide_eq; [apply write_eq|exact W1]]|]. intros o3 W3. apply g_remove. exact W3. }
    intros o4 W4. apply bid_finish_grows. exact W4.
Qed.
Lemma loop_grows n : forall o pr p sd po q pc, wide o -> grows o res_obs (new_order_loop n o pr p sd po q pc).
Proof.
  induction n as [|n IH]; intros o pr p sd po q pc W; cbn [new_order_loop].
  all: apply g_bind with (f := res_obs); [destruct sd; [apply g_pure; intros _ _; apply new_bid_grows; exact W|apply g_pure; intros _ _; apply g_pure; intros _ _; apply new_ask_grows; exact W]|].
  all: intros [[o1 pr1] rem] W1; unfold res_obs in W1; cbn [fst] in W1; unfold res_obs at 1; cbn [fst].
  - apply g_ok; [exact W1|reflexivity].
  - destruct rem as [[q1 pc1]|]; [|apply g_ok; [exact W1|reflexivity]]. apply IH. exact W1.
Qed.

(** ** Two queues *)
Ltac wd := solve [assumption | (eapply wide_eq; [|eassumption]; first [reflexivity|apply write_eq|apply set_orders_eq])].
Ltac grw1 := first [ apply g_panic | apply g_err
  | match goal with |- grows _ _ (if ?c then _ else _) => destruct c end
  | match goal with |- grows _ _ (match ?c with _ => _ end) => destruct c end
  | apply ask_finish_grows; wd | apply bid_finish_grows; wd
  | apply emit_grows; wd | apply g_remove; wd | apply post_grows; wd
  | solve [apply g_ok; [wd|first [reflexivity|apply write_eq|apply set_orders_eq]]]
  | (eapply g_eq; [|apply emit_grows; wd]; first [reflexivity|apply write_eq|apply set_orders_eq])
  | (eapply g_eq; [|apply post_grows; wd]; first [reflexivity|apply write_eq|apply set_orders_eq]) ].
Ltac grw := intros; cbv zeta; unfold me in *; cbn [fst snd] in *;
  match goal with
  | |- grows _ _ (@rbind obs _ _ _) => apply g_bind with (f := me); [grw|grw]
  | |- grows _ _ (@rbind (prod obs proceeds) _ _ _) => apply g_bind with (f := fun x : obs * proceeds => fst x); [grw|let o := fresh in let q := fresh in intros [o q]; grw]
  | |- grows _ _ (rbind _ _) => apply g_pure; grw
  | _ => grw1; grw
  | _ => idtac
  end.

Section Twin.
Variable C : Z.
Record twins (o p : obs) : Prop := mkTwins {
  tw_bids : ob_bids p = ob_bids o; tw_asks : ob_asks p = ob_asks o; tw_mkt : ob_mkt p = ob_mkt o;
  tw_wide : wide o; tw_wide' : wide p; tw_count : q_count (ob_eq p) = q_count (ob_eq o);
  tw_cap : zlen (q_buf (ob_eq o)) = C; tw_cap' : C <= zlen (q_buf (ob_eq p)) }.
Definition twin {X} (f : X -> obs) (S : X -> X -> Prop) (r r' : res X) : Prop :=
  match r with
  | Ok x => exists y, r' = Ok y /\ twins (f x) (f y) /\ S x y
  | Err e => e = EEventQueueFull -> forall y, r' = Ok y -> wide (f y) /\ C < q_count (ob_eq (f y))
  | Panic => True
  end.
Lemma t_ok {X} (f : X -> obs) (S : X -> X -> Prop) x y : twins (f x) (f y) -> S x y -> twin f S (Ok x) (Ok y).
Proof. intros H1 H2. exists y. auto. Qed.
Lemma t_pure {X Y} (g : Y -> obs) S (r : res X) k k' : pure r -> (forall x, twin g S (k x) (k' x)) -> twin g S (rbind r k) (rbind r k').
Proof. intros H1 H2. destruct r as [x|e|]; cbn [rbind]; [auto| |exact I]. cbn. intros ->. destruct (H1 _ eq_refl). congruence. Qed.
Lemma t_bind {X Y} (f : X -> obs) (g : Y -> obs) T S (r r' : res X) k k' : twin f T r r' ->
  (forall x y, twins (f x) (f y) -> T x y -> twin g S (k x) (k' y)) -> (forall y, wide (f y) -> grows (f y) g (k' y)) -> twin g S (rbind r k) (rbind r' k').
Proof.
  intros H1 H2 H3. destruct r as [x|e|]; cbn [rbind twin] in *; [| |exact I].
  - destruct H1 as (y & -> & TW & HT). cbn [rbind]. apply H2; assumption.
  - intros E z Hz. apply rbind_ok in Hz. destruct Hz as (y & E1 & E2). destruct (H1 E y E1) as [W L]. destruct (H3 y W z E2) as [W' L']. split; [exact W'|lia].
Qed.
Definition anyway {X} (x y : X) : Prop := True.
Definition alike (x y : obs * proceeds * remaining) : Prop := snd (fst x) = snd (fst y) /\ snd x = snd y.
Lemma twins_set o p o' p' : twins o p -> ob_bids p' = ob_bids o' -> ob_asks p' = ob_asks o' -> ob_mkt p' = ob_mkt o' -> ob_eq o' = ob_eq o -> ob_eq p' = ob_eq p -> twins o' p'.
Proof. intros [t1 t2 t3 t4 t5 t6 t7 t8] E1 E2 E3 E4 E5. constructor; try assumption; unfold wide in *; rewrite ?E4, ?E5; assumption. Qed.
Lemma emit_twin o p v : twins o p -> twin me anyway (emit o v) (emit p v).
Proof.
  intros T. pose proof T as [t1 t2 t3 ((w1 & w2) & w3) ((w4 & w5) & w6) t6 t7 t8]. unfold emit, push_back, q_full, rem_len.
  destruct (q_count (ob_eq o) =? zlen (q_buf (ob_eq o))) eqn:E.
  - cbn [rbind twin]. intros _ y H. unfold me. destruct (emit_grows p v (tw_wide' _ _ T) y H) as [W L]. split; [exact W|].
    destruct (q_count (ob_eq p) =? zlen (q_buf (ob_eq p))) eqn:E2; [discriminate|]. destruct (zlen (q_buf (ob_eq p)) =? 0); [discriminate|].
    cbn [rbind] in H. destruct (znth _ _); [|discriminate]. cbn [unwrap rbind] in H. injection H as <-.
    cbn [set_eq ob_eq q_count q_buf]. rewrite wadd_small by lia. lia.
  - replace (q_count (ob_eq p) =? zlen (q_buf (ob_eq p))) with false by lia.
    replace (zlen (q_buf (ob_eq o)) =? 0) with false by lia. replace (zlen (q_buf (ob_eq p)) =? 0) with false by lia. cbn [rbind].
    destruct (znth_lt (q_buf (ob_eq o)) (wadd (q_head (ob_eq o)) (q_count (ob_eq o)) mod zlen (q_buf (ob_eq o)))) as [x1 ->]; [apply Z.mod_pos_bound; lia|].
    destruct (znth_lt (q_buf (ob_eq p)) (wadd (q_head (ob_eq p)) (q_count (ob_eq p)) mod zlen (q_buf (ob_eq p)))) as [x2 ->]; [apply Z.mod_pos_bound; lia|].
    cbn [unwrap rbind]. apply t_ok; [|exact I]. unfold me.
    constructor; unfold wide; cbn [set_eq ob_eq q_count q_buf ob_bids ob_asks ob_mkt]; rewrite ?zupd_len, ?t6, ?wadd_small by lia; try assumption; try lia; reflexivity.
Qed.
Ltac tset T := solve [exact T | refine (twins_set _ _ _ _ T _ _ _ _ _); first [reflexivity|apply T|apply write_eq|apply set_orders_eq|idtac]].
Lemma twins_orders o p s x : twins o p -> twins (set_orders o s x) (set_orders p s x).
Proof. intros T. destruct T. destruct s; constructor; assumption || reflexivity. Qed.
Lemma twins_mkt o p m : twins o p -> twins (set_mkt o m) (set_mkt p m).
Proof. intros T. destruct T. constructor; assumption || reflexivity. Qed.
Lemma twins_of o p s : twins o p -> orders_of p s = orders_of o s.
Proof. intros T. destruct T. destruct s; assumption. Qed.
Lemma twins_write o p s h l q : twins o p -> twins (write_qty o s h l q) (write_qty p s h l q).
Proof. intros T. unfold write_qty. rewrite (twins_of _ _ s T). apply twins_orders. exact T. Qed.
Lemma remove_twin o p s x : twins o p -> twin me anyway (remove_order_by_key o s x) (remove_order_by_key p s x).
Proof.
  intros T. unfold remove_order_by_key. rewrite (twins_of _ _ s T). apply t_pure; [apply pure_rem|]. intros [sl l]. apply t_pure; [pur|]. intros _.
  apply t_ok; [|exact I]. apply twins_orders. exact T.
Qed.
Lemma post_twin o p s l : twins o p -> twin me anyway (post_order o s l) (post_order p s l).
Proof.
  intros T. unfold post_order. rewrite (twins_of _ _ s T), (tw_mkt _ _ T). apply t_pure; [apply pure_ins|]. intros [s1 out]. destruct out as [h old|].
  { apply t_ok; [|exact I]. apply twins_orders. exact T. }
  apply t_pure; [apply pure_ext|]. intros [s2 ev]. apply t_pure; [pur|]. intros ord. apply t_pure; [pur; apply pure_price|]. intros u.
  eapply t_bind; [apply emit_twin; apply twins_orders; exact T| |grw]. intros o1 p1 T1 _. unfold me in T1. rewrite (twins_of _ _ s T1).
  apply t_pure; [apply pure_ins|]. intros [s3 out2]. destruct out2; [|exact I]. apply t_ok; [|exact I]. apply twins_orders. exact T1.
Qed.
Lemma ask_finish_twin o o' pr p mq un ac rb cr dn : twins o o' -> twin res_obs alike (ask_finish o pr p mq un ac rb cr dn) (ask_finish o' pr p mq un ac rb cr dn).
Proof.
  intros T. unfold ask_finish. rewrite (tw_mkt _ _ T). apply t_pure; [pure_pr|]. intros pr1. apply t_pure; [pure_pr|]. intros pr2. cbv zeta.
  apply t_bind with (f := me) (T := anyway); [destruct (_ && _); [apply emit_twin; exact T|apply t_ok; [exact T|exact I]]| |grw].
  intros o1 p1 T1 _. unfold me in T1. destruct (negb dn && _); [apply t_ok; [apply twins_mkt; exact T1|split; reflexivity]|].
  destruct (op_post_allowed p && _ && _).
  { apply t_pure; [pur|]. intros _. eapply t_bind; [apply post_twin; apply twins_mkt; exact T1| |grw]. intros o3 p3 T3 _. apply t_ok; [exact T3|split; reflexivity]. }
  destruct (negb (is_send_take p)); [|apply t_ok; [apply twins_mkt; exact T1|split; reflexivity]].
  apply t_pure; [pure_pr|]. intros pr3. eapply t_bind; [apply emit_twin; apply twins_mkt; exact T1| |grw]. intros o3 p3 T3 _. apply t_ok; [exact T3|split; reflexivity].
Qed.
Lemma bid_finish_twin o o' pr p mq lk lim mp cr pr0 rb crossed dn : twins o o' ->
  twin res_obs alike (bid_finish o pr p mq lk lim mp cr pr0 rb crossed dn) (bid_finish o' pr p mq lk lim mp cr pr0 rb crossed dn).
Proof.
  intros T. unfold bid_finish. rewrite (tw_mkt _ _ T). apply t_pure; [pure_pr|]. intros pr1. apply t_pure; [pure_pr|]. intros pr2. cbv zeta.
  apply t_bind with (f := me) (T := anyway); [destruct (_ && negb (is_send_take p)); [apply emit_twin; exact T|apply t_ok; [exact T|exact I]]| |grw].
  intros o1 p1 T1 _. unfold me in T1. destruct (negb dn && _ && _); [apply t_ok; [apply twins_mkt; exact T1|split; reflexivity]|].
  apply t_pure; [pur|]. intros [post keep].
  apply t_bind with (f := fun x : obs * proceeds => fst x) (T := fun x y => snd x = snd y); [| |intros [? ?]; grw].
  { destruct (negb (is_send_take p)); [|apply t_ok; [apply twins_mkt; exact T1|reflexivity]].
    apply t_pure; [pure_pr|]. intros pr3. eapply t_bind; [apply emit_twin; apply twins_mkt; exact T1| |grw]. intros o3 p3 T3 _. apply t_ok; [exact T3|reflexivity]. }
  intros [o3 pr3] [p3 pr3'] T3 E. cbn [fst snd] in T3, E. subst pr3'. destruct (0 <? keep); [|apply t_ok; [exact T3|split; reflexivity]].
  eapply t_bind; [apply post_twin; exact T3| |grw]. intros o4 p4 T4 _. apply t_ok; [exact T4|split; reflexivity].
Qed.
Lemma twins_bbo o p s : twins o p -> find_bbo p s = find_bbo o s.
Proof. intros T. destruct T as [t1 t2 _ _ _ _ _ _]. unfold find_bbo. rewrite t1, t2. reflexivity. Qed.
Lemma new_ask_twin o o' pr p q lim po : twins o o' -> twin res_obs alike (new_ask o pr p q lim po) (new_ask o' pr p q lim po).
Proof.
  intros T. unfold new_ask. rewrite (twins_bbo _ _ _ T), (tw_mkt _ _ T), (tw_bids _ _ T). apply t_pure; [apply pure_bbo|]. intros [h|]; [|apply ask_finish_twin; exact T].
  apply t_pure; [apply pure_leaf|]. intros b. apply t_pure; [apply pure_price|]. intros price. cbv zeta.
  destruct (negb _ || po); [apply ask_finish_twin; exact T|]. destruct (Z.min _ _ =? 0); [apply ask_finish_twin; exact T|].
  destruct (op_owner p =? l_owner b).
  - destruct (op_st p); cbn [rbind]; [| |discriminate].
    all: eapply t_bind; [apply emit_twin; exact T| |grw]; intros o1 p1 T1 _; unfold me in T1.
    all: apply t_bind with (f := me) (T := anyway); [destruct (_ =? 0); [apply remove_twin; exact T1|apply t_ok; [apply twins_write; exact T1|exact I]]| |grw]; intros o2 p2 T2 _; unfold me in T2.
    all: eapply t_bind; [apply emit_twin; exact T2| |grw]; intros o3 p3 T3 _; (apply t_pure; [pure_pr|]); intros pr1; apply t_ok; [exact T3|split; reflexivity].
  - apply t_pure; [apply pure_tier|]. intros mt. eapply t_bind; [apply emit_twin; exact T| |grw]. intros o1 p1 T1 _. unfold me in T1.
    apply t_bind with (f := me) (T := anyway); [|intros o4 p4 T4 _; apply ask_finish_twin; exact T4|grw].
    destruct (_ =? 0); [|apply t_ok; [apply twins_write; exact T1|exact I]].
    eapply t_bind; [apply emit_twin; apply twins_write; exact T1| |grw]. intros o3 p3 T3 _. apply remove_twin. exact T3.
Qed.
Lemma new_bid_twin o o' pr p q L lim po : twins o o' -> twin res_obs alike (new_bid o pr p q L lim po) (new_bid o' pr p q L lim po).
Proof.
  intros T. unfold new_bid. rewrite (twins_bbo _ _ _ T), (tw_mkt _ _ T), (tw_asks _ _ T). apply t_pure; [pur|]. intros _. apply t_pure; [apply pure_net|]. intros net.
  destruct (m_pc_lot (ob_mkt o) =? 0); [exact I|]. cbv zeta.
  apply t_pure; [apply pure_bbo|]. intros [h|]; [|apply bid_finish_twin; exact T].
  apply t_pure; [apply pure_leaf|]. intros b. apply t_pure; [apply pure_price|]. intros price.
  destruct (negb _ || po); [apply bid_finish_twin; exact T|]. destruct (Z.min _ _ =? 0); [apply bid_finish_twin; exact T|].
  destruct (op_owner p =? l_owner b).
  - destruct (op_st p); cbn [rbind]; [| |discriminate].
    all: eapply t_bind; [apply emit_twin; exact T| |grw]; intros o1 p1 T1 _; unfold me in T1.
    all: apply t_bind with (f := me) (T := anyway); [match goal with |- context [if ?c then _ else _] => destruct c end; [apply remove_twin; exact T1|apply t_ok; [apply twins_write; exact T1|exact I]]| |grw]; intros o2 p2 T2 _; unfold me in T2.
    all: match goal with |- context [if ?c then (_, _) else _] => destruct c end.
    all: (apply t_pure; [pure_pr|]); intros pr1; eapply t_bind; [apply emit_twin; exact T2| |grw]; intros o3 p3 T3 _; apply t_ok; [exact T3|split; reflexivity].
  - apply t_pure; [apply pure_tier|]. intros mt. eapply t_bind; [apply emit_twin; exact T| |grw]. intros o1 p1 T1 _. unfold me in T1.
    apply t_bind with (f := me) (T := anyway); [|intros o4 p4 T4 _; apply bid_finish_twin; exact T4|grw].
    match goal with |- context [if ?c then _ else _] => destruct c end; [|apply t_ok; [apply twins_write; exact T1|exact I]].
    eapply t_bind; [apply emit_twin; apply twins_write; exact T1| |grw]. intros o3 p3 T3 _. apply remove_twin. exact T3.
Qed.
Theorem loop_twin n : forall o o' pr p sd po q pc, twins o o' -> twin res_obs alike (new_order_loop n o pr p sd po q pc) (new_order_loop n o' pr p sd po q pc).
Proof.
  induction n as [|n IH]; intros o o' pr p sd po q pc T; cbn [new_order_loop].
  all: apply t_bind with (f := res_obs) (T := alike);
    [destruct sd; [apply t_pure; [pur|]; intros _; apply new_bid_twin; exact T|apply t_pure; [pur|]; intros _; apply t_pure; [pur|]; intros _; apply new_ask_twin; exact T]| |].
  1, 3: intros [[o1 pr1] rem] [[p1 pr1'] rem'] T1 [E1 E2]; cbn [fst snd] in E1, E2; subst pr1' rem'; unfold res_obs in T1; cbn [fst] in T1.
  - apply t_ok; [exact T1|split; reflexivity].
  - destruct rem as [[q1 pc1]|]; [apply IH; exact T1|apply t_ok; [exact T1|split; reflexivity]].
  - intros [[o1 pr1] rem] W1. unfold res_obs in W1. cbn [fst] in W1. apply g_ok; [exact W1|reflexivity].
  - intros [[o1 pr1] rem] W1. unfold res_obs in W1. cbn [fst] in W1. unfold res_obs at 1. cbn [fst].
    destruct rem as [[q1 pc1]|]; [|apply g_ok; [exact W1|reflexivity]]. apply loop_grows. exact W1.
Qed.
End Twin.
