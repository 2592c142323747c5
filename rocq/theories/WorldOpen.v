(** Opening a market: what InitializeMarket does and that it can be done; orders past their time limit are refused. *)
From Coq Require Import Permutation.
From Verif Require Import Base BaseProofs Fees ListSum Queue QueueProofs Codec CodecProofs Critbit CritbitSlab Market Matching
  MatchSteps MatchRefine MatchRun MatchSpec Ledger Slots Core CoreInv CoreNew Instr InstrProofs
  Store Process StoreProofs World WorldInv WorldLoad WorldRun WorldInit WorldMain WorldSpec WorldFacts OpenSpec.

(** ** Time limits *)
Lemma core_in_time o rq oo x t ix bal now r : new_order_core o rq oo x t ix bal now = Ok r -> oi_max_ts ix <= I64_MAX -> in_time now ix.
Proof.
  unfold new_order_core. intros H B. apply rbind_ok in H. destruct H as (u & H & _). apply check_ok in H. unfold in_time. lia.
Qed.
Lemma order_in_time e c s ix ms s' : proc_new_order e c s ix ms = Ok s' -> oi_max_ts ix <= I64_MAX -> in_time (c_now c) ix.
Proof.
  unfold proc_new_order. intros H B. do 12 (destruct ms as [|? ms]; [discriminate|]).
  repeat (apply rbind_ok in H; destruct H as (? & ? & H)).
  repeat match goal with H : (let (_, _) := ?x in _) = Ok _ |- _ => destruct x end.
  match goal with H : new_order_core _ _ _ _ _ _ _ _ = Ok _ |- _ => eapply core_in_time; [exact H|exact B] end.
Qed.
Lemma orders_in_time e c ms : forall ixs s s', proc_new_orders e c s ixs ms = Ok s' -> forall ix, In ix ixs -> oi_max_ts ix <= I64_MAX -> in_time (c_now c) ix.
Proof.
  induction ixs as [|i r IH]; cbn [proc_new_orders]; intros s s' H ix I B; [destruct I|]. apply rbind_ok in H. destruct H as (s1 & H1 & H2).
  destruct I as [<-|I]; [eapply order_in_time; eassumption|eapply IH; eassumption].
Qed.
Lemma wf_orders i ix : wf_instr i -> In ix (orders_in i) -> oi_max_ts ix <= I64_MAX.
Proof.
  destruct i; cbn [orders_in]; try (intros _ []; fail); intros W I.
  - destruct I as [<-|[]]. apply W.
  - destruct I as [<-|[]]. apply W.
  - cbn [wf_instr] in W. destruct W as [_ W]. rewrite Forall_forall in W. apply (W _ I).
Qed.
Theorem expired_refused e c s i ms s' : wf_instr i -> process e c s i ms = Ok s' -> forall ix, In ix (orders_in i) -> in_time (c_now c) ix.
Proof.
  intros W H ix I. pose proof (wf_orders i ix W I) as B. destruct i; cbn [orders_in] in I; try (destruct I; fail); cbn [process] in H.
  - destruct I as [<-|[]]. eapply order_in_time; eassumption.
  - unfold proc_replace in H. apply rbind_ok in H. destruct H as (? & _ & H). apply rbind_ok in H. destruct H as (? & _ & H). eapply orders_in_time; eassumption.
  - unfold proc_replace in H. apply rbind_ok in H. destruct H as (? & _ & H). apply rbind_ok in H. destruct H as (? & _ & H). eapply orders_in_time; eassumption.
Qed.
Theorem expired_no_effect e c s i ms ix : wf_instr i -> In ix (orders_in i) -> ~ in_time (c_now c) ix -> transact e c s (pack i) ms = s.
Proof.
  intros W I N. unfold transact, process_bytes. rewrite (pack_unpack i W). cbn [ok_or rbind].
  destruct (process e c s i ms) eqn:E; [|reflexivity..]. exfalso. apply N. eapply expired_refused; eassumption.
Qed.

(** Apart from that the time does not matter. *)
Lemma core_clock o rq oo x t ix bal n1 n2 : in_time n1 ix -> in_time n2 ix -> new_order_core o rq oo x t ix bal n1 = new_order_core o rq oo x t ix bal n2.
Proof.
  unfold new_order_core, in_time. intros H1 H2.
  replace (negb (oi_max_ts ix <? I64_MAX) || (n1 <=? oi_max_ts ix)) with true by lia. replace (negb (oi_max_ts ix <? I64_MAX) || (n2 <=? oi_max_ts ix)) with true by lia. reflexivity.
Qed.
Lemma rbind_ext {X Y} (r : res X) (f g : X -> res Y) : (forall x, f x = g x) -> rbind r f = rbind r g.
Proof. destruct r; cbn; auto. Qed.
Lemma load_orders_clock e s m x w c1 c2 a : c_exempt c1 = c_exempt c2 -> load_orders e s m x w (Some c1) a = load_orders e s m x w (Some c2) a.
Proof.
  intros E. unfold load_orders. apply rbind_ext; intros _. apply rbind_ext; intros oo. f_equal. destruct (oo_flags oo =? 0); [|reflexivity].
  apply rbind_ext; intros _. cbn [ok_or rbind]. rewrite E. reflexivity.
Qed.
Lemma order_clock e c1 c2 s ix ms : c_exempt c1 = c_exempt c2 -> in_time (c_now c1) ix -> in_time (c_now c2) ix -> proc_new_order e c1 s ix ms = proc_new_order e c2 s ix ms.
Proof.
  intros E T1 T2. unfold proc_new_order. do 12 (destruct ms as [|? ms]; [reflexivity|]).
  do 14 (apply rbind_ext; intros ?). rewrite (load_orders_clock _ _ _ _ _ c1 c2) by exact E. apply rbind_ext; intros ?.
  rewrite (core_clock _ _ _ _ _ _ _ _ (c_now c2) T1 T2). reflexivity.
Qed.
Lemma orders_clock e c1 c2 ms : c_exempt c1 = c_exempt c2 -> forall ixs s, (forall ix, In ix ixs -> in_time (c_now c1) ix /\ in_time (c_now c2) ix) ->
  proc_new_orders e c1 s ixs ms = proc_new_orders e c2 s ixs ms.
Proof.
  intros E. induction ixs as [|i r IH]; intros s T; cbn [proc_new_orders]; [reflexivity|].
  destruct (T i (or_introl eq_refl)) as [T1 T2]. rewrite (order_clock e c1 c2 s i ms E T1 T2). apply rbind_ext. intros s1. apply IH. intros ix I. apply T. right. exact I.
Qed.
Lemma exempt_clock c1 c2 s x : c_exempt c1 = c_exempt c2 -> check_exempt c1 s x = check_exempt c2 s x.
Proof. intros E. unfold check_exempt. rewrite E. reflexivity. Qed.
Theorem clock_only_for_expiry e c1 c2 s i ms : c_exempt c1 = c_exempt c2 -> (forall ix, In ix (orders_in i) -> in_time (c_now c1) ix /\ in_time (c_now c2) ix) ->
  process e c1 s i ms = process e c2 s i ms.
Proof.
  intros E T. destruct i; cbn [process orders_in] in *; try reflexivity.
  - unfold proc_init_market. destruct (map mk ms) as [|k [|rqa [|eqa [|ba [|aa [|cv [|pv [|cm [|pm [|rent auths]]]]]]]]]]; try reflexivity. cbn [each].
    apply rbind_ext. intros _. rewrite !(exempt_clock c1 c2) by exact E. reflexivity.
  - destruct (T _ (or_introl eq_refl)) as [T1 T2]. apply order_clock; assumption.
  - unfold proc_init_oo. destruct ms as [|? [|? [|? [|? ms]]]]; try reflexivity.
    repeat (apply rbind_ext; intros ?). f_equal. apply load_orders_clock. exact E.
  - unfold proc_replace. apply rbind_ext. intros ?. apply rbind_ext. intros ?. apply orders_clock; assumption.
  - unfold proc_replace. apply rbind_ext. intros ?. apply rbind_ext. intros ?. apply orders_clock; assumption.
Qed.

(** ** Opening a market *)
Section Open.
Variable e : env.
Hypothesis EO : env_ok e.
Notation D := (dexd e).

Lemma key_ats ms l : map mk ms = l -> forall i, key_at ms i = nth_error l i.
Proof. intros <- i. unfold key_at. rewrite nth_error_map. reflexivity. Qed.
Lemma init_asked s ix ms s' k rqa eqa ba aa cv pv cm pm p auths :
  ran_init e s ix ms s' k rqa eqa ba aa cv pv cm pm p auths -> as_asked ix ms (new_market ix k rqa eqa ba aa cv pv cm pm auths).
Proof.
  intros R. destruct (ri_keys _ _ _ _ _ _ _ _ _ _ _ _ _ _ _ _ R) as (rent & K). pose proof (ri_auths _ _ _ _ _ _ _ _ _ _ _ _ _ _ _ _ R) as LA. pose proof (key_ats _ _ K) as KA.
  assert (LM : (length ms <= 13)%nat). { rewrite <- (map_length mk), K. cbn [length]. unfold zlen in LA. lia. }
  unfold zlen in LA. constructor; try reflexivity; try exact LM; cbn [map]; rewrite ?KA; cbn [nth_error]; try reflexivity;
    unfold disabled, permissioned, needs_crank_authority, permissioned, new_market; cbn [m_flags m_oo_auth m_prune_auth m_crank_auth];
    destruct auths as [|a1 [|a2 [|a3 [|a4 r]]]]; cbn [nth nth_error length] in *; try lia; cbv [market_flags]; cbn; try tauto; try (split; [intros; discriminate|]; congruence); try congruence.
  all: try (intros ? [= <-]; reflexivity). all: try (split; intuition congruence).
Qed.
Lemma put_sizes s x d y : a_len (sget (put_data s x d) y) = a_len (sget s y) /\ a_lamports (sget (put_data s x d) y) = a_lamports (sget s y) /\ a_prog (sget (put_data s x d) y) = a_prog (sget s y).
Proof. rewrite sget_put. destruct (Z.eqb_spec y x) as [->|]; cbn; auto. Qed.

Theorem open_effect c s ix ms s' : history e s -> process e c s (IInitMarket ix) ms = Ok s' -> exists m, market_opened e s s' ix ms m.
Proof.
  intros HI H. cbn [process] in H. apply init_ran in H. destruct H as (k & rqa & eqa & ba & aa & cv & pv & cm & pm & p & auths & R).
  pose proof (reachable_inv e EO s HI) as WI. pose proof (wi_str _ _ WI) as W. pose proof (in_view e EO s ix ms s' k rqa eqa ba aa cv pv cm pm p auths R) as (V & Q).
  destruct (in_own e EO s ix ms s' k rqa eqa ba aa cv pv cm pm p auths R) as (o1 & o2 & o3 & o4 & o5).
  set (m := new_market ix k rqa eqa ba aa cv pv cm pm auths) in *. exists m. constructor.
  - exact (init_asked _ _ _ _ _ _ _ _ _ _ _ _ _ _ _ R).
  - repeat split.
  - exact (ri_zero _ _ _ _ _ _ _ _ _ _ _ _ _ _ _ _ R).
  - exact o1.
  - exact o5.
  - intros N. cbn [m new_market m_bids m_asks m_own] in *. constructor; cbn [m new_market m_bids m_asks m_event_q a_bids a_asks a_evs].
    + exact o1.
    + eexists. split; [exact (o2 N)|]. apply slab_new_ok.
    + eexists. split; [exact o3|]. apply slab_new_ok.
    + eexists. split; [exact o4|]. cbn. constructor.
    + constructor.
    + intros x oo. split; [intros []|]. intros (L1 & L2 & L3). exfalso. apply (in_was_oo e EO s ix ms s' k rqa eqa ba aa cv pv cm pm p auths R) in L1.
      destruct (ws_oo _ W x oo L1) as [[_ (mm & G)]|F]; [|rewrite F in L2; discriminate]. rewrite L3 in G.
      rewrite (ri_zero _ _ _ _ _ _ _ _ _ _ _ _ _ _ _ _ R k) in G by (cbn; auto). discriminate.
  - destruct (ri_cv _ _ _ _ _ _ _ _ _ _ _ _ _ _ _ _ R) as (t & T1 & T2 & T3 & (T4 & T5) & T6 & T7). exists t. cbn [m new_market m_coin_vault m_own m_nonce m_coin_mint].
    split; [rewrite <- T1; apply Q|]. split; [rewrite T3; exact (ri_pda _ _ _ _ _ _ _ _ _ _ _ _ _ _ _ _ R)|auto].
  - destruct (ri_pv _ _ _ _ _ _ _ _ _ _ _ _ _ _ _ _ R) as (t & T1 & T2 & T3 & (T4 & T5) & T6 & T7). exists t. cbn [m new_market m_pc_vault m_own m_nonce m_pc_mint].
    split; [rewrite <- T1; apply Q|]. split; [rewrite T3; exact (ri_pda _ _ _ _ _ _ _ _ _ _ _ _ _ _ _ _ R)|auto].
  - rewrite (ri_store _ _ _ _ _ _ _ _ _ _ _ _ _ _ _ _ R). intros y NI. cbn [m new_market new_accounts m_own m_req_q m_event_q m_bids m_asks In] in NI. rewrite !sget_put.
    replace (y =? k) with false by lia. replace (y =? aa) with false by lia. replace (y =? ba) with false by lia. replace (y =? eqa) with false by lia. replace (y =? rqa) with false by lia. reflexivity.
  - intros x. rewrite (ri_store _ _ _ _ _ _ _ _ _ _ _ _ _ _ _ _ R).
    rewrite !(fun a b d => proj1 (put_sizes a b d x)), !(fun a b d => proj1 (proj2 (put_sizes a b d x))), !(fun a b d => proj2 (proj2 (put_sizes a b d x))). auto.
Qed.
Lemma each_fine (f : Z -> res unit) ks : (forall x, In x ks -> f x = Ok tt) -> each f ks = Ok tt.
Proof. induction ks as [|x r IH]; intros H; cbn [each]; [reflexivity|]. rewrite (H x (or_introl eq_refl)). cbn [rbind]. apply IH. intros y I. apply H. right. exact I. Qed.
Lemma fresh_fine s len x : 20 <= len -> blank_of e s len x -> check_fresh e s x = Ok tt.
Proof.
  intros G (B1 & B2 & B3). unfold dexd in B1. unfold check_fresh. destruct (a_prog (sget s x) =? e_prog e); [|discriminate]. cbn [check rbind].
  replace (_ && _) with true by lia. cbn [check rbind]. destruct (a_data (sget s x)); congruence || reflexivity.
Qed.
Lemma vault_fine s p v mint : usable_vault s p v mint -> is_mint s mint -> check_vault s p v mint = Ok tt.
Proof.
  intros (t & T1 & T2 & T3 & T4 & T5 & T6 & T7) (M1 & M2 & M3). unfold check_vault, load_token, load_mint. unfold token_at in T1.
  destruct (Z.eqb_spec (a_prog (sget s v)) spl_id); [|discriminate]. destruct (a_data (sget s v)); try discriminate. injection T1 as ->.
  rewrite T2, M1, M2, M3, !Z.eqb_refl. cbn [check rbind]. rewrite T3. cbn [Z.eqb Pos.eqb check rbind]. rewrite T4, !Z.eqb_refl, T6, T7, T5. cbn [check rbind]. rewrite Z.eqb_refl. reflexivity.
Qed.
Theorem open_possible c s ix ms k rqa eqa ba aa cv pv cm pm rent p auths :
  map mk ms = k :: rqa :: eqa :: ba :: aa :: cv :: pv :: cm :: pm :: rent :: auths -> (length auths <= 3)%nat ->
  NoDup [k; rqa; eqa; ba; aa] -> blank_of e s 388 k -> a_len (sget s k) = match auths with [] => 388 | _ => 1476 end ->
  blank_of e s 124 rqa -> blank_of e s 11308 eqa -> blank_of e s 14524 ba -> blank_of e s 14524 aa ->
  e_pda e (ii_nonce ix) k = Some p -> usable_vault s p cv cm -> usable_vault s p pv pm -> is_mint s cm -> is_mint s pm ->
  (forall x, In x [rqa; eqa; ba; aa; cv; pv; cm; pm] -> c_exempt c (a_lamports (sget s x)) (a_len (sget s x)) = true) ->
  exists s', process e c s (IInitMarket ix) ms = Ok s'.
Proof.
  intros K LA ND BK LK BR BE BB BA PDA VC VP MC MP EX. cbn [process]. unfold proc_init_market. rewrite K.
  replace (zlen auths <=? 3) with true by (unfold zlen; lia). cbn [check rbind].
  rewrite each_fine by (intros x I; unfold check_exempt; rewrite (EX x I); reflexivity). cbn [rbind].
  rewrite each_fine by (cbn [In]; intros x [<-|[<-|[<-|[<-|[<-|[]]]]]]; eapply fresh_fine; [|eassumption| |eassumption| |eassumption| |eassumption| |eassumption]; lia). cbn [rbind].
  rewrite PDA. cbn [ok_or rbind]. rewrite !vault_fine by assumption. cbn [rbind].
  repeat match goal with H : NoDup (_ :: _) |- _ => apply NoDup_cons_iff in H; destruct H end. cbn [In] in *.
  replace (_ && _) with true by (unfold key_in; cbn [existsb]; lia). cbn [check rbind].
  destruct BR as (_ & _ & BR), BE as (_ & _ & BE), BB as (_ & _ & BB), BA as (_ & _ & BA).
  replace (1 <=? req_slots (a_len (sget s rqa))) with true by (unfold req_slots; symmetry; apply Z.leb_le, Z.div_le_lower_bound; lia).
  replace (128 <=? event_slots (a_len (sget s eqa))) with true by (unfold event_slots; symmetry; apply Z.leb_le, Z.div_le_lower_bound; lia). cbn [check rbind]. cbv zeta.
  assert (CAP : forall n, 14524 <= n -> assert_minimum_capacity (slab_new (Z.to_nat (slab_slots n))) 100 = Ok tt).
  { intros n Hn. assert (201 <= slab_slots n) by (unfold slab_slots; apply Z.div_le_lower_bound; lia). unfold assert_minimum_capacity, slab_new. cbn [s_nodes]. unfold zlen. rewrite repeat_length.
    replace (_ <=? _) with false by lia. reflexivity. }
  rewrite !CAP by assumption. cbn [rbind]. replace (a_len (sget s k) =? _) with true by (rewrite LK; destruct auths; reflexivity). cbn [check rbind]. eauto.
Qed.
End Open.
