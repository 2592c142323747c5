(** Nobody can keep a trader waiting (C78). *)
From Verif Require Import Base BaseProofs Fees ListSum Queue QueueProofs Codec CodecProofs Critbit CritbitProofs CritbitSlab Market Matching MatchSteps MatchSpec MatchFacts MatchReport MatchRefine Ledger LedgerRun LedgerSums LedgerSteps Slots
  Core CoreInv Instr InstrProofs Store Process StoreProofs World WorldInv WorldLoad WorldRun WorldMain WorldSpec WorldFacts
  WorldRange WorldCancel WorldPay WorldTrade WorldCrank WorldRights WorldSupply LifeSpec LifeProofs LifeSteps LifeMain AbsentSpec AbsentProofs StatementProofs DelaySpec.

(** What processing an event makes free. *)
Definition frees_coin (v : event_view) : Z := match v with EvFill Bid true _ received _ _ _ _ _ _ => received | EvOut Ask true unlocked _ _ _ _ _ => unlocked | _ => 0 end.
Definition frees_pc (v : event_view) : Z := match v with EvFill Ask true _ received _ _ _ _ _ _ => received | EvOut Bid true unlocked _ _ _ _ _ => unlocked | _ => 0 end.
Lemma frees_sum vs : zsum frees_coin vs = zsum coin_move vs + zsum ev_lock_coin vs /\ zsum frees_pc vs = zsum pc_move vs + zsum ev_lock_pc vs.
Proof.
  induction vs as [|v vs [I1 I2]]; [cbn; auto|]. cbn [zsum]. rewrite I1, I2. destruct v as [[] [] ? ? ? ? ? ? ? ?|[] [] ? ? ? ? ? ?]; cbn [frees_coin frees_pc coin_move pc_move ev_lock_coin ev_lock_pc]; lia.
Qed.
Lemma frees_nonneg v : ev_ok v -> 0 <= frees_coin v /\ 0 <= frees_pc v.
Proof. destruct v as [[] [] ? ? ? ? ? ? ? ?|[] [] ? ? ? ? ? ?]; cbn [ev_ok frees_coin frees_pc]; lia. Qed.
Lemma frees_all vs : Forall ev_ok vs -> 0 <= zsum frees_coin vs /\ 0 <= zsum frees_pc vs.
Proof. induction 1 as [|v vs O F [I1 I2]]; [cbn; lia|]. destruct (frees_nonneg v O). cbn [zsum]. lia. Qed.
Lemma booked_frees vs : forall oo oo', booked vs oo oo' -> oo_coin_free oo' = oo_coin_free oo + zsum frees_coin vs /\ oo_pc_free oo' = oo_pc_free oo + zsum frees_pc vs.
Proof.
  induction vs as [|v r IH]; intros oo oo' B; cbn [booked] in B; [subst oo'; cbn [zsum]; lia|]. destruct B as (oo1 & [BA _ _] & B). destruct (IH _ _ B) as [T1 T2]. cbn [zsum].
  unfold changed_by in BA. destruct v as [[] [] ? ? ? ? ? ? ? ?|[] [] ? ? ? ? ? ?]; cbn [frees_coin frees_pc] in *; lia.
Qed.

Section Delay.
Variable e : env.
Hypothesis EO : env_ok e.
Notation D := (dexd e).
Notation acct := (Z * open_orders)%type.
Definition freed (x : Z) (oo oo' : open_orders) (us : list event_view) : Prop :=
  oo_coin_free oo + zsum frees_coin (events_of x us) <= oo_coin_free oo' /\ oo_pc_free oo + zsum frees_pc (events_of x us) <= oo_pc_free oo'.
Lemma free_step s s' c i ms k m A L x oo m' A' L' E : history e s -> no_overflow e s -> legal e ms -> wf_instr i -> process e c s i ms = Ok s' -> seen e s k m A L -> usable m ->
  In (x, oo) L -> ~ signed_by ms (oo_owner oo) -> seen e s' k m' A' L' -> same_config m m' -> queued e k s s' E ->
  exists oo' us, In (x, oo') L' /\ oo_owner oo' = oo_owner oo /\ a_evs A ++ E = us ++ a_evs A' /\ (us = [] \/ E = []) /\ freed x oo oo' us.
Proof.
  intros HI G LG WF H SN P IX NS SN' SC QE. destruct (absent_step e EO s s' c i ms k m A L HI G LG WF H SN P x oo m' A' L' E IX NS SN' SC QE) as ((oo' & IX' & OW & NL & _) & _).
  destruct (lived_step e EO s s' c i ms k m A L (reachable_inv e EO s HI) G LG WF H SN P m' A' L' SN' SC) as (_ & vs & rest & E0 & X1 & X2 & O & _).
  assert (E0 = E) as -> by (eapply (queued_fun e); [|exact QE]; apply (queued_iff e _ _ _ _ _ _ _ _ _ _ SN SN'); exists vs, rest; intuition).
  exists oo'. destruct O as [->|[-> CI]].
  - exists []. split; [exact IX'|]. split; [exact OW|]. cbn [app] in X1. subst rest. split; [cbn [app]; congruence|]. split; [auto|]. destruct NL as (N1 & N2 & _). unfold freed. cbn [events_of filter zsum]. lia.
  - destruct (consume_kept e EO s s' c i ms k m A L HI G H SN P m' A' L' CI SN') as (us & EA & BK). destruct (BK x oo IX) as (o2 & DX & B).
    assert (o2 = oo') as -> by (apply (sn_oos _ _ _ _ _ _ SN') in IX'; destruct IX' as (I1 & _); congruence).
    exists us. split; [exact IX'|]. split; [exact OW|]. split; [rewrite app_nil_r; exact EA|]. split; [auto|]. destruct (booked_frees _ _ _ B). unfold freed. lia.
Qed.
Lemma free_story k w s E s' : absent e k w s E s' -> history e s -> forall m A L x oo, seen e s k m A L -> usable m -> In (x, oo) L -> oo_owner oo = w ->
  history e s' /\ exists m' A' L' oo' used old new, seen e s' k m' A' L' /\ same_config m m' /\ In (x, oo') L' /\ oo_owner oo' = w /\
    a_evs A = used ++ old /\ a_evs A' = old ++ new /\ (old = [] \/ new = E) /\ (exists us, a_evs A ++ E = us ++ a_evs A') /\ freed x oo oo' used.
Proof.
  intros AB HI m A L x oo SN P IX OW. induction AB as [|E s1 c b ms E1 AB IH G SZ HB LG NS Q|E s1 s2 AB IH R].
  - split; [exact HI|]. exists m, A, L, oo, [], (a_evs A), []. split; [exact SN|]. split; [apply same_config_refl|]. split; [exact IX|]. split; [exact OW|]. split; [reflexivity|]. split; [symmetry; apply app_nil_r|]. split; [auto|]. split; [exists []; apply app_nil_r|]. unfold freed. cbn [events_of filter zsum]. lia.
  - destruct IH as (HI1 & m1 & A1 & L1 & oo1 & used & old & new & SN1 & SC1 & IX1 & OW1 & U1 & U2 & U3 & (us0 & U4) & FR). split; [apply reach_tx; assumption|]. assert (P1 : usable m1) by (destruct SC1 as (? & ? & ? & ? & ? & ->); exact P).
    destruct (transact_cases e c s1 b ms HB) as [ES|(i & WF & H)].
    + rewrite ES in *. assert (E1 = []) as ->.
      { eapply (queued_fun e); [exact Q|]. apply (queued_iff e _ _ _ _ _ _ _ _ _ _ SN1 SN1). exists [], (a_evs A1). rewrite app_nil_r. auto. }
      rewrite app_nil_r. exists m1, A1, L1, oo1, used, old, new. eauto 12.
    + set (s2 := transact e c s1 b ms) in *. destruct (seen_after e EO _ _ _ _ _ _ _ _ _ HI1 G SZ LG WF H SN1 P1) as (m2 & A2 & L2 & SN2 & SC2).
      assert (NS1 : ~ signed_by ms (oo_owner oo1)) by (rewrite OW1; exact NS). destruct (free_step s1 s2 c i ms k m1 A1 L1 x oo1 m2 A2 L2 E1 HI1 G LG WF H SN1 P1 IX1 NS1 SN2 SC2 Q) as (oo2 & us & IX2 & OW2 & V1 & V2 & FR2).
      assert (FF : exists us, a_evs A ++ E ++ E1 = us ++ a_evs A2) by (exists (us0 ++ us); rewrite <- app_assoc, <- V1, !app_assoc, U4; reflexivity).
      pose proof (pending_ok e EO s1 k m1 A1 L1 HI1 SN1 P1) as OK. exists m2, A2, L2, oo2. unfold freed in *. destruct V2 as [->| ->].
      * cbn [app] in V1. exists used, old, (new ++ E1). split; [exact SN2|]. split; [eapply same_config_trans; eassumption|]. split; [exact IX2|]. split; [congruence|]. split; [exact U1|]. split; [rewrite <- V1, U2, app_assoc; reflexivity|]. split; [destruct U3 as [U3|U3]; [auto|right; congruence]|]. split; [exact FF|].
        cbn [events_of filter zsum] in FR2. lia.
      * rewrite !app_nil_r in *. rewrite U2 in V1. rewrite U2 in OK. destruct (app_eq_app _ _ _ _ V1) as (z & [[Z1 Z2]|[Z1 Z2]]).
        -- exists (used ++ us), z, new. split; [exact SN2|]. split; [eapply same_config_trans; eassumption|]. split; [exact IX2|]. split; [congruence|]. split; [rewrite U1, Z1, app_assoc; reflexivity|]. split; [exact Z2|]. split; [destruct U3 as [U3|U3]; [left; rewrite U3 in Z1; destruct us, z; try discriminate; reflexivity|auto]|]. split; [exact FF|].
           rewrite events_app, !zsum_app. lia.
        -- exists (used ++ old), [], (a_evs A2). split; [exact SN2|]. split; [eapply same_config_trans; eassumption|]. split; [exact IX2|]. split; [congruence|]. split; [rewrite app_nil_r; exact U1|]. split; [reflexivity|]. split; [auto|]. split; [exact FF|].
           rewrite Z2 in OK. apply Forall_app in OK. destruct OK as [_ OK]. apply Forall_app in OK. destruct OK as [OK _]. pose proof (frees_all (events_of x z) (filter_all _ _ _ OK)) as [F1 F2]. rewrite Z1, events_app, !zsum_app in FR2. rewrite events_app, !zsum_app. lia.
  - destruct IH as (HI1 & m1 & A1 & L1 & oo1 & used & old & new & SN1 & SC1 & IX1 & OW1 & U1 & U2 & U3 & U4 & FR). assert (P1 : usable m1) by (destruct SC1 as (? & ? & ? & ? & ? & ->); exact P).
    split; [eapply reach_env; eassumption|]. destruct (env_seen e EO _ _ _ _ _ _ HI1 R SN1 P1) as (A2 & L2 & SN2 & EE & EL). exists m1, A2, L2, oo1, used, old, new. rewrite EE. split; [exact SN2|]. split; [exact SC1|]. split; [apply EL; exact IX1|]. auto 8.
Qed.
Section One.
Variables (k w : Z) (s : store) (E : list event_view) (s' : store) (m : market) (A : astate) (L : list acct) (m' : market) (A' : astate) (L' : list acct) (x : Z) (oo : open_orders).
Hypothesis (HI : history e s) (AB : absent e k w s E s') (SN : seen e s k m A L) (P : usable m) (SN' : seen e s' k m' A' L') (IX : In (x, oo) L) (OW : oo_owner oo = w).
Theorem in_turn : exists used, a_evs A ++ E = used ++ a_evs A'.
Proof.
  destruct (free_story k w s E s' AB HI m A L x oo SN P IX OW) as (_ & m2 & A2 & L2 & oo2 & used & old & new & SN2 & _ & _ & _ & _ & _ & _ & U & _). destruct (seen_same e _ _ _ _ _ _ _ _ SN2 SN') as (_ & _ & EE). rewrite EE. exact U.
Qed.
Hypothesis (DONE : (length (a_evs A') <= length E)%nat).
Theorem free_in_turn : exists oo', In (x, oo') L' /\ oo_owner oo' = w /\
  coin_claim x oo A - zsum (worth m Ask) (own_orders x (a_asks A)) <= oo_coin_free oo' /\ pc_claim x oo A - zsum (worth m Bid) (own_orders x (a_bids A)) <= oo_pc_free oo'.
Proof.
  destruct (free_story k w s E s' AB HI m A L x oo SN P IX OW) as (_ & m2 & A2 & L2 & oo2 & used & old & new & SN2 & _ & IX2 & OW2 & U1 & U2 & U3 & _ & F1 & F2). destruct (seen_same e _ _ _ _ _ _ _ _ SN2 SN') as (_ & _ & EE).
  assert (old = []) as ->. { destruct U3 as [U3| ->]; [exact U3|]. rewrite <- EE in U2. rewrite U2, app_length in DONE. destruct old; [reflexivity|cbn [length] in DONE; lia]. }
  rewrite app_nil_r in U1. subst used. exists oo2. split; [apply (sn_oos _ _ _ _ _ _ SN'); apply (sn_oos _ _ _ _ _ _ SN2); exact IX2|]. split; [exact OW2|].
  destruct (locked_exact e EO s k m A L HI SN P x oo IX) as (_ & _ & _ & _ & K1 & K2). destruct (frees_sum (events_of x (a_evs A))) as [S1 S2]. unfold coin_claim, pc_claim. unfold events_of in *. lia.
Qed.
Theorem all_out : no_orders x A -> exists oo', In (x, oo') L' /\ oo_owner oo' = w /\ all_free oo' /\ oo_coin_total oo' = coin_claim x oo A /\ oo_pc_total oo' = pc_claim x oo A.
Proof.
  intros NO. destruct (absent_story e EO k w s E s' AB HI m A L x oo SN P IX OW) as (HI' & m2 & A2 & L2 & SN2 & SC & (oo2 & IX2 & OW2 & NL & C1 & C2) & EV & BK).
  destruct (seen_same e _ _ _ _ _ _ _ _ SN2 SN') as (M2 & EB & EE). assert (P' : usable m') by (rewrite M2; destruct SC as (? & ? & ? & ? & ? & ->); exact P).
  assert (NE : forall v, In v E -> ev_owner v <> x) by (intros v I O; destruct (EV v I O) as (sd & l & IL & OL & _); exact (NO sd l IL OL)).
  assert (NP : forall v, In v (a_evs A') -> ev_owner v <> x).
  { intros v I. apply NE. destruct in_turn as (used & U). assert (EQ : exists z, E = z ++ a_evs A').
    { destruct (app_eq_app _ _ _ _ U) as (z & [[Z1 Z2]|[Z1 Z2]]); [|eauto]. exists []. rewrite Z2 in DONE. rewrite app_length in DONE. destruct z; [rewrite Z2; reflexivity|cbn [length] in DONE; lia]. }
    destruct EQ as (z & ->). apply in_or_app. auto. }
  assert (NB : no_orders x A') by (intros sd l I O; rewrite EB in I; destruct (BK sd l I O) as (l0 & q & I0 & ->); exact (NO sd l0 I0 O)).
  assert (Z0 : forall vs, (forall v, In v vs -> ev_owner v <> x) -> events_of x vs = []).
  { intros vs N. unfold events_of. induction vs as [|v vs IH]; [reflexivity|]. cbn [filter]. destruct (Z.eqb_spec (ev_owner v) x) as [E0|_]; [exfalso; exact (N v (or_introl eq_refl) E0)|]. apply IH. intros u I. apply N. right. exact I. }
  assert (ZB : forall sd, own_orders x (book_of A' sd) = []).
  { intros sd. assert (N : forall l, ~ In l (own_orders x (book_of A' sd))) by (intros l I; apply own_In in I; destruct I as [I O]; exact (NB sd l I O)). destruct (own_orders x (book_of A' sd)) as [|l r]; [reflexivity|]. exfalso. exact (N l (or_introl eq_refl)). }
  assert (IX' : In (x, oo2) L') by (apply (sn_oos _ _ _ _ _ _ SN'); apply (sn_oos _ _ _ _ _ _ SN2); exact IX2).
  destruct (locked_exact e EO s' k m' A' L' HI' SN' P' x oo2 IX') as (_ & _ & _ & _ & K1 & K2). pose proof (ZB Bid) as Z1. pose proof (ZB Ask) as Z2. cbn [book_of] in Z1, Z2. pose proof (Z0 _ NP) as Z3. unfold events_of in Z3. rewrite Z2, Z3 in K1. rewrite Z1, Z3 in K2. cbn [zsum] in K1, K2.
  exists oo2. split; [exact IX'|]. split; [exact OW2|]. unfold coin_claim in C1. unfold pc_claim in C2. rewrite <- EE, (Z0 _ NP), (Z0 _ NE) in C1, C2. cbn [zsum] in C1, C2. unfold coin_claim, pc_claim. split; [|lia].
  split; [lia|]. split; [lia|]. intros j J. destruct (is_free oo2 j) eqn:FJ; [reflexivity|]. exfalso. destruct (slots_agree e EO s' k m' A' L' HI' SN' P') as (_ & _ & SA & _). destruct (SA x oo2 j IX' J FJ) as [[(l & I & _ & O & _) _]|[_ (E0 & f & SE & _)]].
  - exact (NB _ _ I O).
  - assert (I : In f (slot_events x j A')) by (rewrite SE; apply in_or_app; right; left; reflexivity). unfold slot_events in I. apply filter_In in I. destruct I as [I I2]. apply andb_prop in I2. destruct I2 as [I2 _]. apply (NP f I). lia.
Qed.
End One.
End Delay.
