(** Only the named accounts matter to an instruction (C80). *)
From Verif Require Import Base BaseProofs Fees Queue Codec Critbit Market Matching Slots Core Instr Store Process StoreProofs World WorldSpec LocalSpec.

Section Local.
Variables (e : env) (S : list Z) (s1 s2 : store).
Definition both (a b : store) : Prop := same_at S a b /\ only s1 a S /\ only s2 b S.
Definition sim (r1 r2 : res store) : Prop :=
  match r1, r2 with Ok a, Ok b => both a b | Err x, Err y => x = y | Panic, Panic => True | _, _ => False end.
Lemma both_put a b k d : both a b -> In k S -> both (put_data a k d) (put_data b k d).
Proof.
  intros (H1 & H2 & H3) I. split; [|split].
  - intros x X. rewrite !sget_put. destruct (x =? k); [rewrite (H1 k I); reflexivity|apply H1; exact X].
  - intros x X. rewrite sget_put. destruct (Z.eqb_spec x k) as [->|]; [contradiction|apply H2; exact X].
  - intros x X. rewrite sget_put. destruct (Z.eqb_spec x k) as [->|]; [contradiction|apply H3; exact X].
Qed.
Lemma both_lam a b k v : both a b -> In k S -> both (put_lamports a k v) (put_lamports b k v).
Proof.
  intros (H1 & H2 & H3) I. split; [|split].
  - intros x X. rewrite !sget_lam. destruct (x =? k); [rewrite (H1 k I); reflexivity|apply H1; exact X].
  - intros x X. rewrite sget_lam. destruct (Z.eqb_spec x k) as [->|]; [contradiction|apply H2; exact X].
  - intros x X. rewrite sget_lam. destruct (Z.eqb_spec x k) as [->|]; [contradiction|apply H3; exact X].
Qed.
Lemma sim_bind {A} (r1 r2 : res A) f g : r1 = r2 -> (forall x, sim (f x) (g x)) -> sim (rbind r1 f) (rbind r2 g).
Proof. intros <- H. destruct r1; cbn [rbind]; [apply H|reflexivity|exact I]. Qed.
Lemma sim_then r1 r2 f g : sim r1 r2 -> (forall a b, both a b -> sim (f a) (g b)) -> sim (rbind r1 f) (rbind r2 g).
Proof. destruct r1, r2; cbn [sim rbind]; intros X H; try contradiction; auto. Qed.
Section Two.
Variables (a b : store).
Hypothesis H : both a b.
Lemma get_eq k : In k S -> sget a k = sget b k. Proof. apply H. Qed.
Lemma token_eq k : In k S -> token_at a k = token_at b k. Proof. intros I. unfold token_at. rewrite get_eq by exact I. reflexivity. Qed.
Lemma market_eq k v : In k S -> load_market e a k v = load_market e b k v. Proof. intros I. unfold load_market. rewrite get_eq by exact I. reflexivity. Qed.
Lemma orders_eq m k o r u : In k S -> load_orders e a m k o r u = load_orders e b m k o r u. Proof. intros I. unfold load_orders. rewrite get_eq by exact I. reflexivity. Qed.
Lemma slab_eq sd f k : In k S -> load_slab a sd f k = load_slab b sd f k. Proof. intros I. unfold load_slab. rewrite get_eq by exact I. reflexivity. Qed.
Lemma req_eq m k : In k S -> load_req_q a m k = load_req_q b m k. Proof. intros I. unfold load_req_q. rewrite get_eq by exact I. reflexivity. Qed.
Lemma evq_eq m k : In k S -> load_event_q a m k = load_event_q b m k. Proof. intros I. unfold load_event_q. rewrite get_eq by exact I. reflexivity. Qed.
Lemma ltoken_eq k : In k S -> load_token a k = load_token b k. Proof. intros I. unfold load_token. rewrite get_eq by exact I. reflexivity. Qed.
Lemma mint_eq k : In k S -> load_mint a k = load_mint b k. Proof. intros I. unfold load_mint. rewrite get_eq by exact I. reflexivity. Qed.
Lemma cv_eq m k : In k S -> load_coin_vault a m k = load_coin_vault b m k. Proof. intros I. unfold load_coin_vault. rewrite ltoken_eq by exact I. reflexivity. Qed.
Lemma pv_eq m k : In k S -> load_pc_vault a m k = load_pc_vault b m k. Proof. intros I. unfold load_pc_vault. rewrite ltoken_eq by exact I. reflexivity. Qed.
Lemma cw_eq m k : In k S -> load_coin_wallet a m k = load_coin_wallet b m k. Proof. intros I. unfold load_coin_wallet. rewrite ltoken_eq by exact I. reflexivity. Qed.
Lemma pw_eq m k : In k S -> load_pc_wallet a m k = load_pc_wallet b m k. Proof. intros I. unfold load_pc_wallet. rewrite ltoken_eq by exact I. reflexivity. Qed.
Lemma discount_eq l : incl (map mk l) S -> load_discount a l = load_discount b l.
Proof. intros I. unfold load_discount. destruct l as [|d [|]]; [reflexivity| |reflexivity]. rewrite ltoken_eq; [reflexivity|]. apply I. left. reflexivity. Qed.
Lemma balance_eq k : In k S -> balance a k = balance b k. Proof. intros I. unfold balance. rewrite get_eq by exact I. reflexivity. Qed.
Lemma fresh_eq k : In k S -> check_fresh e a k = check_fresh e b k. Proof. intros I. unfold check_fresh. rewrite get_eq by exact I. reflexivity. Qed.
Lemma exempt_eq c k : In k S -> check_exempt c a k = check_exempt c b k. Proof. intros I. unfold check_exempt. rewrite get_eq by exact I. reflexivity. Qed.
Lemma vault_eq p v m : In v S -> In m S -> check_vault a p v m = check_vault b p v m. Proof. intros I J. unfold check_vault. rewrite ltoken_eq, mint_eq by assumption. reflexivity. Qed.
Lemma transfer_sim src dst au sg amt : In src S -> In dst S -> sim (spl_transfer a src dst au sg amt) (spl_transfer b src dst au sg amt).
Proof.
  intros I J. unfold spl_transfer. rewrite !token_eq by assumption. apply sim_bind; [reflexivity|]. intros _. apply sim_bind; [reflexivity|]. intros ts. apply sim_bind; [reflexivity|]. intros td.
  do 6 (apply sim_bind; [reflexivity|]; intros _). destruct (src =? dst); [exact H|]. apply sim_bind; [reflexivity|]. intros _. cbv zeta. cbn [sim]. apply both_put; [apply both_put; assumption|assumption].
Qed.
Lemma send_sim v dst au amt : In v S -> In dst S -> sim (send_from_vault a v dst au amt) (send_from_vault b v dst au amt).
Proof.
  intros I J. unfold send_from_vault. pose proof (transfer_sim v dst au true amt I J) as T. destruct (spl_transfer a v dst au true amt), (spl_transfer b v dst au true amt); cbn [sim] in *; try contradiction; auto.
Qed.
Lemma write_both k x y q o : In k S -> In x S -> In y S -> In q S -> both (write_obs a k x y q o) (write_obs b k x y q o).
Proof. intros. unfold write_obs. repeat apply both_put; assumption. Qed.
End Two.
Lemma take_in_sim a b h src v au amt : both a b -> In src S -> In v S -> sim (transfer_in a h src v au amt) (transfer_in b h src v au amt).
Proof.
  intros H I J. unfold transfer_in. destruct (amt =? 0); [exact H|]. rewrite (balance_eq a b H v J). apply sim_bind; [reflexivity|]. intros b0. apply sim_bind; [reflexivity|]. intros _.
  apply sim_then; [apply transfer_sim; assumption|]. intros a' b' H'. rewrite (balance_eq a' b' H' v J). apply sim_bind; [reflexivity|]. intros b1. apply sim_bind; [reflexivity|]. intros _. exact H'.
Qed.
End Local.

Ltac named := match goal with HS : incl _ ?S |- In _ ?S => apply HS; cbn [map In mk]; tauto | HS : incl _ ?S |- incl _ ?S => intros ? ?; apply HS; cbn [map In mk] in *; tauto | |- both _ _ _ _ _ => assumption end.
Ltac by_eq := first [reflexivity
  | first [eapply market_eq | eapply orders_eq | eapply slab_eq | eapply req_eq | eapply evq_eq | eapply ltoken_eq | eapply cv_eq | eapply pv_eq | eapply cw_eq | eapply pw_eq | eapply discount_eq | eapply vault_eq | eapply balance_eq]; [eassumption|named..]].
Ltac one := apply sim_bind; [by_eq|let x := fresh "v" in intros x; repeat match goal with p : (_ * _)%type |- _ => destruct p end].

Section Procs.
Variables (e : env) (S : list Z) (s1 s2 : store).
Notation both := (both S s1 s2).
Notation sim := (sim S s1 s2).
Variables (a b : store).
Hypothesis H : both a b.
Lemma cancel_local core ms : incl (map mk ms) S -> sim (proc_cancel e a core ms) (proc_cancel e b core ms).
Proof.
  intros HS. unfold proc_cancel. destruct ms as [|mkt [|ba [|aa [|oa [|sg [|eqa r]]]]]]; try reflexivity. do 7 one. cbn [LocalProofs.sim]. apply both_put; [|named]. apply write_both; named.
Qed.
Lemma order_local c ix ms : incl (map mk ms) S -> sim (proc_new_order e c a ix ms) (proc_new_order e c b ix ms).
Proof.
  intros HS. unfold proc_new_order. destruct ms as [|mkt [|oa [|rqa [|eqa [|ba [|aa [|payer [|owner [|cv [|pv [|spl [|rent disc]]]]]]]]]]]]; try reflexivity. do 16 one. cbv zeta.
  apply take_in_sim; [|named|destruct (oi_side ix); named]. apply both_put; [|named]. apply both_put; [|named]. apply write_both; named.
Qed.
Lemma take_local ix ms : incl (map mk ms) S -> sim (proc_send_take e a ix ms) (proc_send_take e b ix ms).
Proof.
  intros HS. unfold proc_send_take. destruct ms as [|mkt [|rqa [|eqa [|ba [|aa [|cw [|pw [|signer [|cv [|pv [|spl [|vs disc]]]]]]]]]]]]; try reflexivity. do 15 one. cbv zeta.
  assert (W : forall o' rq', both (put_data (write_obs a (mk mkt) (mk ba) (mk aa) (mk eqa) o') (mk rqa) (DReqQ rq')) (put_data (write_obs b (mk mkt) (mk ba) (mk aa) (mk eqa) o') (mk rqa) (DReqQ rq'))).
  { intros o' rq'. apply both_put; [|named]. apply write_both; named. }
  destruct (ti_side ix); (apply sim_then; [apply take_in_sim; [apply W|named|named]|intros a2 b2 K2]); (match goal with |- LocalProofs.sim _ _ _ (if ?x then _ else _) _ => destruct x end); try exact K2; apply send_sim; named.
Qed.
Lemma settle_local ms : incl (map mk ms) S -> sim (proc_settle e a ms) (proc_settle e b ms).
Proof.
  intros HS. unfold proc_settle. destruct ms as [|mkt [|oa [|owner [|cv [|pv [|cw [|pw [|vs [|spl refs]]]]]]]]]; try reflexivity. do 7 one.
  destruct refs as [|r [|]].
  - cbn [rbind]. do 3 one. cbv zeta. apply sim_then; [apply send_sim; [apply both_put; [apply both_put; [exact H|named]|named]|named|named]|]. intros a2 b2 K2.
    apply sim_then; [apply send_sim; [exact K2|named|named]|]. intros a3 b3 K3. exact K3.
  - rewrite (pw_eq S s1 s2 a b H) by named. destruct (load_pc_wallet b _ (mk r)); cbn [rbind]; [|reflexivity|exact I]. do 3 one. cbv zeta. apply sim_then; [apply send_sim; [apply both_put; [apply both_put; [exact H|named]|named]|named|named]|]. intros a2 b2 K2.
    apply sim_then; [apply send_sim; [exact K2|named|named]|]. intros a3 b3 K3. match goal with |- LocalProofs.sim _ _ _ (match ?x with _ => _ end) _ => destruct x end; [apply send_sim; [exact K3|named|named]|exact K3].
  - reflexivity.
Qed.
Lemma disable_local ms : incl (map mk ms) S -> sim (proc_disable e a ms) (proc_disable e b ms).
Proof. intros HS. unfold proc_disable. destruct ms as [|mkt [|sg [|]]]; try reflexivity. do 3 one. cbn [LocalProofs.sim]. apply both_put; [exact H|named]. Qed.
Lemma sweep_local ms : incl (map mk ms) S -> sim (proc_sweep e a ms) (proc_sweep e b ms).
Proof.
  intros HS. unfold proc_sweep. destruct ms as [|mkt [|pv [|au [|pw [|vs [|spl [|]]]]]]]; try reflexivity. do 7 one. apply send_sim; [apply both_put; [exact H|named]|named|named].
Qed.
Lemma close_local ms : incl (map mk ms) S -> sim (proc_close e a ms) (proc_close e b ms).
Proof.
  intros HS. unfold proc_close. destruct ms as [|oa [|owner [|dest [|mkt [|]]]]]; try reflexivity. do 4 one. cbv zeta.
  rewrite !(get_eq S s1 s2 a b H) by named. do 2 one. cbn [LocalProofs.sim]. apply both_put; [|named]. apply both_lam; [|named]. apply both_lam; [exact H|named].
Qed.
Lemma open_local c ms : incl (map mk ms) S -> sim (proc_init_oo e c a ms) (proc_init_oo e c b ms).
Proof.
  intros HS. unfold proc_init_oo. destruct ms as [|oa [|owner [|mkt [|rent rest]]]]; try reflexivity. do 4 one. cbn [LocalProofs.sim]. apply both_put; [exact H|named].
Qed.
Lemma prune_local l ms : incl (map mk ms) S -> sim (proc_prune e a l ms) (proc_prune e b l ms).
Proof.
  intros HS. unfold proc_prune. destruct ms as [|mkt [|ba [|aa [|au [|oa [|owner [|eqa [|]]]]]]]]; try reflexivity. do 8 one. cbn [LocalProofs.sim]. apply both_put; [|named]. apply write_both; named.
Qed.
Lemma each_eq (f g : Z -> res unit) ks : (forall k, In k ks -> f k = g k) -> each f ks = each g ks.
Proof. induction ks as [|k r IH]; cbn [each]; intros E; [reflexivity|]. rewrite (E k (or_introl eq_refl)), IH; [reflexivity|]. intros y Y. apply E. right. exact Y. Qed.
Lemma init_local c ix ms : incl (map mk ms) S -> sim (proc_init_market e c a ix ms) (proc_init_market e c b ix ms).
Proof.
  intros HS. unfold proc_init_market. destruct (map mk ms) as [|mkt [|rqa [|eqa [|ba [|aa [|cv [|pv [|cm [|pm [|rent auths]]]]]]]]]]; try reflexivity.
  assert (I : forall k, In k [mkt; rqa; eqa; ba; aa; cv; pv; cm; pm] -> In k S) by (intros k K; apply HS; cbn [In] in *; tauto).
  one. apply sim_bind; [apply each_eq; intros k K; apply (exempt_eq S s1 s2 a b H); apply I; cbn [In] in *; tauto|]. intros _. apply sim_bind; [apply each_eq; intros k K; apply (fresh_eq e S s1 s2 a b H); apply I; cbn [In] in *; tauto|]. intros _.
  one. do 2 (apply sim_bind; [apply (vault_eq S s1 s2 a b H); apply I; cbn [In]; tauto|]; intros _). rewrite !(get_eq S s1 s2 a b H) by (apply I; cbn [In]; tauto). do 3 one. cbv zeta. do 3 one. cbn [LocalProofs.sim].
  repeat apply both_put; try (apply I; cbn [In]; tauto). exact H.
Qed.
End Procs.
Section Rest.
Variables (e : env) (S : list Z) (s1 s2 : store).
Notation both := (both S s1 s2).
Notation sim := (sim S s1 s2).
Lemma orders_local c ixs ms : incl (map mk ms) S -> forall a b, both a b -> sim (proc_new_orders e c a ixs ms) (proc_new_orders e c b ixs ms).
Proof.
  intros HS. induction ixs as [|ix r IH]; intros a b H; cbn [proc_new_orders]; [exact H|]. apply sim_then; [apply order_local; assumption|]. intros a2 b2 K2. apply IH. exact K2.
Qed.
Lemma nths_incl {A} (l : list A) is r : nths l is = Some r -> incl r l.
Proof.
  revert r. induction is as [|i is IH]; cbn [nths]; intros r N; [injection N as <-; intros ? []|]. destruct (nth_error l i) as [x|] eqn:X; [|discriminate]. destruct (nths l is) as [y|]; [|discriminate]. injection N as <-.
  intros z [<-|Z]; [eapply nth_error_In; exact X|exact (IH y eq_refl z Z)].
Qed.
Lemma replace_local c ixs ms a b : incl (map mk ms) S -> both a b -> sim (proc_replace e c a ixs ms) (proc_replace e c b ixs ms).
Proof.
  intros HS H. unfold proc_replace. destruct (nths ms [0; 4; 5; 1; 7; 3]%nat) as [cms|] eqn:N; cbn [unwrap rbind]; [|exact I]. pose proof (nths_incl _ _ _ N) as IN.
  apply sim_then; [apply cancel_local; [exact H|]|intros a2 b2 K2; apply orders_local; assumption]. intros x X. apply HS. apply in_map_iff in X. destruct X as (y & <- & Y). apply in_map. apply IN. exact Y.
Qed.
Lemma bsearch_in fuel : forall ks x l r, bsearch fuel ks x l r = true -> In x ks.
Proof.
  induction fuel as [|f IH]; intros ks x l r; cbn [bsearch]; [discriminate|]. destruct (l <? r); [|discriminate]. cbv zeta. destruct (znth ks (l + (r - l) / 2)) as [k|] eqn:K; [|discriminate].
  destruct (Z.ltb_spec k x); [apply IH|]. destruct (Z.ltb_spec x k); [apply IH|]. intros _. assert (x = k) by lia. subst k. unfold znth in K. destruct (_ <? 0); [discriminate|]. eapply nth_error_In. exact K.
Qed.
Lemma loop_local m oos n : incl oos S -> forall q a b, both a b ->
  match consume_loop e a m q oos n, consume_loop e b m q oos n with Ok (x, p), Ok (y, r) => both x y /\ p = r | Err u, Err v => u = v | Panic, Panic => True | _, _ => False end.
Proof.
  intros IO. induction n as [|n IH]; intros q a b H; cbn [consume_loop]; [auto|]. destruct (peek_front q) as [oev|?|]; cbn [rbind]; auto. destruct oev as [ev|]; [|auto]. destruct (event_as_view ev) as [v|?|]; cbn [rbind]; auto.
  destruct (binary_search oos (e_owner ev)) eqn:B; [|auto]. assert (I : In (e_owner ev) S) by (apply IO; eapply bsearch_in; exact B). rewrite (orders_eq e S s1 s2 a b H) by exact I.
  destruct (load_orders e b m (e_owner ev) None None None) as [oo|?|]; cbn [rbind]; auto. destruct (consume_event oo v) as [oo'|?|]; cbn [rbind]; auto. destruct (pop_front q) as [r|?|]; cbn [rbind]; auto. destruct (ok_or r EConsumeFailure) as [q'|?|]; cbn [rbind]; auto.
  apply IH. apply both_put; assumption.
Qed.
Lemma consume_local m eqa oos l a b : In eqa S -> incl oos S -> both a b -> sim (consume_with e a m eqa oos l) (consume_with e b m eqa oos l).
Proof.
  intros I IO H. unfold consume_with. apply sim_bind; [eapply evq_eq; eassumption|]. intros q. pose proof (loop_local m oos (Z.to_nat l) IO q a b H) as L.
  destruct (consume_loop e a m q oos (Z.to_nat l)) as [[x p]|?|], (consume_loop e b m q oos (Z.to_nat l)) as [[y r]|?|]; cbn [rbind LocalProofs.sim]; try contradiction; auto. destruct L as [L ->]. apply both_put; assumption.
Qed.
Lemma rev_in (ms r : list meta) : rev ms = r -> incl (map mk ms) S -> incl (map mk r) S.
Proof. intros <- HS x X. apply HS. apply in_map_iff in X. destruct X as (y & <- & Y). apply in_map. apply in_rev. exact Y. Qed.
Theorem process_local c i ms a b : incl (map mk ms) S -> both a b -> sim (process e c a i ms) (process e c b i ms).
Proof.
  intros HS H. destruct i; cbn [process]; try exact I; try exact H.
  - apply init_local; assumption.
  - unfold proc_consume. destruct (rev ms) as [|m1 [|m2 [|eqa [|mkt r]]]] eqn:R; try reflexivity. pose proof (rev_in _ _ R HS) as HR. destruct r as [|r0 r]; [reflexivity|]. apply sim_bind; [eapply market_eq; [exact H|apply HR; cbn [map In]; tauto]|]. intros m.
    apply sim_bind; [reflexivity|]. intros _. apply consume_local; [apply HR; cbn [map In]; tauto| |exact H]. intros x X. apply HR. do 4 right. rewrite map_rev in X. apply in_rev in X. exact X.
  - apply settle_local; assumption.
  - apply disable_local; assumption.
  - apply sweep_local; assumption.
  - apply order_local; assumption.
  - apply cancel_local; assumption.
  - unfold proc_cancel_cid. apply sim_bind; [reflexivity|]. intros _. apply cancel_local; assumption.
  - apply take_local; assumption.
  - apply close_local; assumption.
  - apply open_local; assumption.
  - apply prune_local; assumption.
  - unfold proc_consume_perm. destruct (rev ms) as [|au [|eqa [|mkt r]]] eqn:R; try reflexivity. pose proof (rev_in _ _ R HS) as HR. destruct r as [|r0 r]; [reflexivity|]. apply sim_bind; [eapply market_eq; [exact H|apply HR; cbn [map In]; tauto]|]. intros m.
    do 2 (apply sim_bind; [reflexivity|]; intros _). apply consume_local; [apply HR; cbn [map In]; tauto| |exact H]. intros x X. apply HR. do 3 right. rewrite map_rev in X. apply in_rev in X. exact X.
  - apply cancel_local; assumption.
  - apply replace_local; assumption.
  - apply replace_local; assumption.
Qed.
End Rest.
Theorem only_named_matter e c i ms s1 s2 : same_at (map mk ms) s1 s2 ->
  same_outcome (process e c s1 i ms) (process e c s2 i ms) /\ forall a b, process e c s1 i ms = Ok a -> process e c s2 i ms = Ok b -> same_at (map mk ms) a b.
Proof.
  intros H. pose proof (process_local e (map mk ms) s1 s2 c i ms s1 s2 (incl_refl _)) as X. assert (B : both (map mk ms) s1 s2 s1 s2) by (split; [exact H|split; intros y _; reflexivity]). specialize (X B).
  unfold sim in X. split; [unfold same_outcome; destruct (process e c s1 i ms), (process e c s2 i ms); auto|]. intros a b E1 E2. rewrite E1, E2 in X. apply X.
Qed.
Theorem only_named_change e c i ms s s' : process e c s i ms = Ok s' -> only s s' (map mk ms).
Proof.
  intros E. pose proof (process_local e (map mk ms) s s c i ms s s (incl_refl _)) as X. assert (B : both (map mk ms) s s s s) by (split; [intros y _; reflexivity|split; intros y _; reflexivity]). specialize (X B).
  rewrite E in X. apply X.
Qed.
Lemma transact_local e c b ms s1 s2 : same_at (map mk ms) s1 s2 -> same_at (map mk ms) (transact e c s1 b ms) (transact e c s2 b ms).
Proof.
  intros H. unfold transact, process_bytes. destruct (unpack b) as [i|]; cbn [ok_or rbind]; [|exact H]. destruct (only_named_matter e c i ms s1 s2 H) as [O A].
  destruct (process e c s1 i ms) as [a|?|], (process e c s2 i ms) as [b2|?|]; cbn [same_outcome] in O; try contradiction; try exact H. exact (A _ _ eq_refl eq_refl).
Qed.
Lemma transact_only e c b ms s : only s (transact e c s b ms) (map mk ms).
Proof.
  unfold transact, process_bytes. destruct (unpack b) as [i|]; cbn [ok_or rbind]; [|intros y _; reflexivity]. destruct (process e c s i ms) as [a|?|] eqn:E; try (intros y _; reflexivity). exact (only_named_change _ _ _ _ _ _ E).
Qed.
Theorem transactions_commute e c1 c2 b1 b2 ms1 ms2 s : let s1 := transact e c1 s b1 ms1 in let s2 := transact e c2 s b2 ms2 in
  same_at (map mk ms2) s s1 -> same_at (map mk ms1) s s2 -> same_world (transact e c2 s1 b2 ms2) (transact e c1 s2 b1 ms1).
Proof.
  intros s1 s2 A1 A2 x. pose proof (transact_local e c2 b2 ms2 s s1 A1) as L2. pose proof (transact_local e c1 b1 ms1 s s2 A2) as L1.
  pose proof (transact_only e c2 b2 ms2 s1 x) as O2. pose proof (transact_only e c1 b1 ms1 s2 x) as O1. pose proof (transact_only e c1 b1 ms1 s x) as P1. pose proof (transact_only e c2 b2 ms2 s x) as P2. fold s1 in L1, P1. fold s2 in L2, P2.
  destruct (in_dec Z.eq_dec x (map mk ms1)) as [I1|N1], (in_dec Z.eq_dec x (map mk ms2)) as [I2|N2].
  - rewrite <- (L2 x I2), <- (L1 x I1), <- (A1 x I2), <- (A2 x I1). reflexivity.
  - rewrite (O2 N2), <- (L1 x I1). reflexivity.
  - rewrite <- (L2 x I2), (O1 N1). reflexivity.
  - rewrite (O2 N2), (P1 N1), (O1 N1), (P2 N2). reflexivity.
Qed.
