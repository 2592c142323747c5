(** A concrete history: two users trade on an open market; a second market is permissioned. *)
From Verif Require Import Base BaseProofs Fees ListSum Queue QueueProofs Codec Critbit CritbitProofs CritbitSlab Market Matching MatchSteps Ledger MatchSpec Core Instr InstrProofs Store Process StoreProofs World WorldSpec.

(** ** Checkers for the conditions on a step *)
Definition ex_env : env := mkEnv 7 (fun _ k => if k =? 10 then Some 900 else if k =? 30 then Some 901 else None).
Definition ex_clock : clock := mkClock 1000 (fun _ _ => true).
Lemma ex_env_ok : env_ok ex_env.
Proof.
  constructor; cbn [e_pda e_prog ex_env]; [|discriminate|discriminate]. intros n1 k1 n2 k2 p.
  destruct (Z.eqb_spec k1 10), (Z.eqb_spec k2 10), (Z.eqb_spec k1 30), (Z.eqb_spec k2 30); intros; congruence.
Qed.
Lemma sfind_in s k a : sfind s k = Some a -> In (k, a) s.
Proof. induction s as [|[k' a'] r IH]; cbn [sfind]; [discriminate|]. destruct (Z.eqb_spec k' k); [intros [= ->]; left; congruence|right; auto]. Qed.
Lemma sget_cases s k : sget s k = no_account \/ In (k, sget s k) s.
Proof. unfold sget. destruct (sfind s k) eqn:E; [right; apply sfind_in; assumption|left; reflexivity]. Qed.
Lemma dexd_in s k d : dexd ex_env s k = Some d -> In (k, sget s k) s /\ a_data (sget s k) = d /\ a_prog (sget s k) = 7.
Proof. intros H. apply dexd_owned in H. destruct H as [H1 H2]. cbn [e_prog ex_env] in H1. destruct (sget_cases s k) as [E|E]; [rewrite E in H1; discriminate|auto]. Qed.

Definition genesis_b (s : store) : bool := forallb (fun ka =>
  let '(k, a) := ka in
  (if a_prog a =? 7 then negb (k =? 0) && match a_data a with DZero => true | _ => false end else true) &&
  match a_data a with DToken t => (0 <=? t_amount t) && (t_amount t <? B64) | _ => true end) s.
Lemma genesis_ok s : genesis_b s = true -> genesis ex_env s.
Proof.
  unfold genesis_b. rewrite forallb_forall. intros H. constructor.
  - intros k d E. apply dexd_in in E. destruct E as (I & E & P). specialize (H _ I). cbn beta iota in H. rewrite P, E in H. destruct d; cbn in H; try rewrite andb_false_r in H; try reflexivity; discriminate H.
  - destruct (dexd ex_env s 0) eqn:E; [|reflexivity]. apply dexd_in in E. destruct E as (I & E & P). specialize (H _ I). cbn beta iota in H. rewrite P in H. discriminate H.
  - intros k t E. unfold token_at in E. destruct (a_prog (sget s k) =? spl_id); [|discriminate]. destruct (a_data (sget s k)) eqn:DD; try discriminate. injection E as ->.
    destruct (sget_cases s k) as [F|F]; [rewrite F in DD; discriminate|]. specialize (H _ F). cbn beta iota in H. rewrite DD in H. unfold u64. lia.
Qed.
Definition guard_b (s : store) : bool := forallb (fun ka =>
  match dexd ex_env s (fst ka) with
  | Some (DMarket m) =>
      match dexd ex_env s (m_event_q m) with
      | Some (DEventQ q) => (m_coin_deposits m + pending_paid ev_paid_coin q <? B64) && (m_pc_deposits m + pending_paid ev_paid_pc q <? B64)
      | _ => true end &&
      match dexd ex_env s (m_req_q m) with Some (DReqQ (_, n)) => n + 16 <? B64 | _ => true end
  | _ => true
  end) s.
Lemma guard_ok s : guard_b s = true -> no_overflow ex_env s.
Proof.
  unfold guard_b. rewrite forallb_forall. intros H k m E _. destruct (dexd_in _ _ _ E) as (I & _). specialize (H _ I). cbn [fst] in H. rewrite E in H.
  apply andb_prop in H. destruct H as [H1 H2]. split.
  - intros q Q. rewrite Q in H1. lia.
  - intros c n Q. rewrite Q in H2. lia.
Qed.
Definition sized_b (s : store) : bool := forallb (fun ka => a_len (snd ka) <=? 1000000) s.
Lemma sized_ok s : sized_b s = true -> sized s.
Proof. unfold sized_b. rewrite forallb_forall. intros H k. unfold I64_MAX. destruct (sget_cases s k) as [E|E]; [rewrite E; cbn; lia|]. specialize (H _ E). cbn [snd] in H. lia. Qed.
Definition legal_b (ms : list meta) : bool := forallb (fun a => negb (mk_signer a) || negb ((mk a =? 900) || (mk a =? 901))) ms.
Lemma legal_ok ms : legal_b ms = true -> legal ex_env ms.
Proof.
  unfold legal_b. rewrite forallb_forall. intros H a I S (n & k & E). specialize (H _ I). rewrite S in H. cbn [e_pda ex_env] in E.
  destruct (k =? 10); [injection E as E; rewrite <- E in H; discriminate|]. destruct (k =? 30); [injection E as E; rewrite <- E in H; discriminate|discriminate].
Qed.
Definition bytes_b (b : bytes) : bool := forallb (fun x => (0 <=? x) && (x <? 256)) b.
Lemma bytes_ok b : bytes_b b = true -> is_bytes b.
Proof. unfold bytes_b. rewrite forallb_forall. intros H. apply Forall_forall. intros x I. specialize (H _ I). lia. Qed.
Definition step_b (s : store) (b : bytes) (ms : list meta) : bool := guard_b s && sized_b s && legal_b ms && bytes_b b.
Lemma step_ok s b ms : history ex_env s -> step_b s b ms = true -> history ex_env (transact ex_env ex_clock s b ms).
Proof.
  intros H B. unfold step_b in B. apply andb_prop in B. destruct B as [B B4]. apply andb_prop in B. destruct B as [B B3]. apply andb_prop in B. destruct B as [B1 B2].
  apply reach_tx; [assumption|apply guard_ok|apply sized_ok|apply bytes_ok|apply legal_ok]; assumption.
Qed.

(** ** The accounts *)
Definition ex_token (mint owner amt : Z) : account := mkAccount spl_id 5 165 (DToken (mkToken mint owner amt None 0 1 None)).
Definition ex_blank_acc (len : Z) : account := mkAccount 7 5 len DZero.
Definition ex_mint : account := mkAccount spl_id 5 82 DMint.
(** 17 is the coin mint and 18 the quote mint; 100, 110 and 140 are people. *)
Definition w0 : store := [
  (10, ex_blank_acc 388); (11, ex_blank_acc 124); (12, ex_blank_acc 11308); (13, ex_blank_acc 14524); (14, ex_blank_acc 14524);
  (15, ex_token 17 900 0); (16, ex_token 18 900 0); (17, ex_mint); (18, ex_mint);
  (30, ex_blank_acc 1476); (31, ex_blank_acc 124); (32, ex_blank_acc 11308); (33, ex_blank_acc 14524); (34, ex_blank_acc 14524);
  (35, ex_token 17 901 0); (36, ex_token 18 901 0);
  (101, ex_blank_acc 3228); (102, ex_token 17 100 1000); (103, ex_token 18 100 10000000);
  (111, ex_blank_acc 3228); (112, ex_token 17 110 1000); (113, ex_token 18 110 10000000);
  (131, ex_blank_acc 3228); (142, ex_token 17 140 1000); (143, ex_token 18 140 10000000); (150, ex_token 18 151 0);
  (100, mkAccount 0 5 0 DZero) ].
Definition k_ (k : Z) : meta := mkMeta k false.
Definition s_ (k : Z) : meta := mkMeta k true.
(** *** Open market 10: coin lot 10, quote lot 1000 *)
Definition ix1 : instr := IInitMarket (mkInitIx 10 1000 0 3 100).
Definition ms1 : list meta := map k_ [10; 11; 12; 13; 14; 15; 16; 17; 18; 0].
Definition w1 : store := Eval vm_compute in transact ex_env ex_clock w0 (pack ix1) ms1.
Definition ms_order (oo payer owner : Z) : list meta := map k_ [10; oo; 11; 12; 13; 14; payer] ++ [s_ owner] ++ map k_ [15; 16; spl_id; 0].
(** Alice (100) offers 4 lots at 50 and 2 lots at 60. *)
Definition ix2 : instr := INewOrderV3 (mkOrderIx Ask 50 4 1 DecrementTake Limit 21 65535 I64_MAX).
Definition w2 : store := Eval vm_compute in transact ex_env ex_clock w1 (pack ix2) (ms_order 101 102 100).
Definition ix3 : instr := INewOrderV3 (mkOrderIx Ask 60 2 1 DecrementTake PostOnly 22 65535 I64_MAX).
Definition w3 : store := Eval vm_compute in transact ex_env ex_clock w2 (pack ix3) (ms_order 101 102 100).
(** Bob (110) bids for 5 lots at 55: buys 4 at 50, 1 lot rests. *)
Definition ix4 : instr := INewOrderV3 (mkOrderIx Bid 55 5 1000000 DecrementTake Limit 23 65535 I64_MAX).
Definition w4 : store := Eval vm_compute in transact ex_env ex_clock w3 (pack ix4) (ms_order 111 113 110).
(** All events are consumed. *)
Definition ix5 : instr := IConsumeEvents 10.
Definition ms_consume : list meta := map k_ [101; 111; 10; 12; 0; 0].
Definition w5 : store := Eval vm_compute in transact ex_env ex_clock w4 (pack ix5) ms_consume.
(** Alice settles; Bob settles with a referrer. *)
Definition ms_settle (oo owner cw pw : Z) (refs : list Z) : list meta := [k_ 10; k_ oo; s_ owner] ++ map k_ ([15; 16; cw; pw; 900; spl_id] ++ refs).
Definition w6 : store := Eval vm_compute in transact ex_env ex_clock w5 (pack ISettleFunds) (ms_settle 101 100 102 103 []).
Definition w7 : store := Eval vm_compute in transact ex_env ex_clock w6 (pack ISettleFunds) (ms_settle 111 110 112 113 [150]).

(** *** Permissioned market 30: opening authority 300, pruning authority 301, crank authority 302 *)
Definition ix8 : instr := IInitMarket (mkInitIx 10 1000 0 3 100).
Definition ms8 : list meta := map k_ [30; 31; 32; 33; 34; 35; 36; 17; 18; 0; 300; 301; 302].
Definition w8 : store := Eval vm_compute in transact ex_env ex_clock w7 (pack ix8) ms8.
Definition ms9 : list meta := [k_ 131; s_ 140; k_ 30; k_ 0; s_ 300].
Definition w9 : store := Eval vm_compute in transact ex_env ex_clock w8 (pack IInitOO) ms9.
Definition ms10 : list meta := map k_ [30; 131; 31; 32; 33; 34; 142] ++ [s_ 140] ++ map k_ [35; 36; spl_id; 0].
Definition ix10 : instr := INewOrderV3 (mkOrderIx Ask 70 3 1 AbortTransaction Limit 31 65535 I64_MAX).
Definition w10 : store := Eval vm_compute in transact ex_env ex_clock w9 (pack ix10) ms10.
Definition ix11 : instr := INewOrderV3 (mkOrderIx Ask 71 2 1 AbortTransaction Limit 32 65535 I64_MAX).
Definition w11 : store := Eval vm_compute in transact ex_env ex_clock w10 (pack ix11) ms10.
(** The prune authority removes both; the crank authority consumes the two final events. *)
Definition ms12 : list meta := map k_ [30; 33; 34] ++ [s_ 301] ++ map k_ [131; 140; 32].
Definition w12 : store := Eval vm_compute in transact ex_env ex_clock w11 (pack (IPrune 4)) ms12.
Definition ms13 : list meta := map k_ [131; 30; 32] ++ [s_ 302].
Definition w13 : store := Eval vm_compute in transact ex_env ex_clock w12 (pack (IConsumePermissioned 5)) ms13.

Lemma w0_h : history ex_env w0.
Proof. apply reach_start, genesis_ok. vm_compute. reflexivity. Qed.
Ltac next H s b ms := match goal with |- history _ ?w => replace w with (transact ex_env ex_clock s b ms) by (vm_compute; reflexivity) end;
  apply step_ok; [exact H|vm_compute; reflexivity].
Lemma w1_h : history ex_env w1. Proof. next w0_h w0 (pack ix1) ms1. Qed.
Lemma w2_h : history ex_env w2. Proof. next w1_h w1 (pack ix2) (ms_order 101 102 100). Qed.
Lemma w3_h : history ex_env w3. Proof. next w2_h w2 (pack ix3) (ms_order 101 102 100). Qed.
Lemma w4_h : history ex_env w4. Proof. next w3_h w3 (pack ix4) (ms_order 111 113 110). Qed.
Lemma w5_h : history ex_env w5. Proof. next w4_h w4 (pack ix5) ms_consume. Qed.
Lemma w6_h : history ex_env w6. Proof. next w5_h w5 (pack ISettleFunds) (ms_settle 101 100 102 103 []). Qed.
Lemma w7_h : history ex_env w7. Proof. next w6_h w6 (pack ISettleFunds) (ms_settle 111 110 112 113 [150]). Qed.

Lemma w8_h : history ex_env w8. Proof. next w7_h w7 (pack ix8) ms8. Qed.
Lemma w9_h : history ex_env w9. Proof. next w8_h w8 (pack IInitOO) ms9. Qed.
Lemma w10_h : history ex_env w10. Proof. next w9_h w9 (pack ix10) ms10. Qed.
Lemma w11_h : history ex_env w11. Proof. next w10_h w10 (pack ix11) ms10. Qed.
Lemma w12_h : history ex_env w12. Proof. next w11_h w11 (pack (IPrune 4)) ms12. Qed.
Lemma w13_h : history ex_env w13. Proof. next w12_h w12 (pack (IConsumePermissioned 5)) ms13. Qed.

(** ** Reading a market off a concrete store *)
Fixpoint views (l : list event) : option (list event_view) :=
  match l with
  | [] => Some []
  | ev :: r => match event_as_view ev, views r with Ok v, Some vs => Some (v :: vs) | _, _ => None end
  end.
Definition accounts_of (s : store) (k : Z) : list (Z * open_orders) :=
  flat_map (fun ka => match dexd ex_env s (fst ka) with
    | Some (DOO oo) => if (oo_flags oo =? OO_FLAGS) && (oo_market oo =? k) then [(fst ka, oo)] else []
    | _ => [] end) s.
Definition look (s : store) (k : Z) : option (market * astate * list (Z * open_orders)) :=
  match dexd ex_env s k with
  | Some (DMarket m) =>
      match dexd ex_env s (m_bids m), dexd ex_env s (m_asks m), dexd ex_env s (m_event_q m) with
      | Some (DSlab Bid b), Some (DSlab Ask a), Some (DEventQ q) =>
          match views (q_list q) with Some vs => Some (m, mkA (book b) (book a) vs, accounts_of s k) | None => None end
      | _, _, _ => None end
  | _ => None end.
Lemma views_ok l : forall vs, views l = Some vs -> Forall2 (fun ev v => event_as_view ev = Ok v) l vs.
Proof.
  induction l as [|ev r IH]; cbn [views]; [intros vs [= <-]; constructor|]. intros vs. destruct (event_as_view ev) eqn:E; try discriminate.
  destruct (views r); [|discriminate]. intros [= <-]. constructor; auto.
Qed.
Definition distinct_keys (s : store) : bool := if list_eq_dec Z.eq_dec (nodup Z.eq_dec (map fst s)) (map fst s) then true else false.
Lemma look_seen s k m A L : look s k = Some (m, A, L) -> distinct_keys s = true -> seen ex_env s k m A L.
Proof.
  unfold look. destruct (dexd ex_env s k) as [[]|] eqn:E1; try discriminate.
  destruct (dexd ex_env s (m_bids m0)) as [[]|] eqn:E2; try discriminate. destruct sd; try discriminate.
  destruct (dexd ex_env s (m_asks m0)) as [[]|] eqn:E3; try discriminate. destruct sd; try discriminate.
  destruct (dexd ex_env s (m_event_q m0)) as [[]|] eqn:E4; try discriminate.
  destruct (views (q_list q)) eqn:E5; [|discriminate]. intros [= <- <- <-] DK.
  unfold distinct_keys in DK. destruct (list_eq_dec Z.eq_dec _ _) as [ND|]; [|discriminate].
  assert (N : NoDup (map fst s)) by (rewrite <- ND; apply NoDup_nodup). clear ND DK.
  constructor; cbn [a_bids a_asks a_evs]; try eauto.
  - exists q. split; [assumption|]. apply views_ok. assumption.
  - unfold accounts_of. generalize (dexd ex_env s). intros d. clear - N. induction s as [|[x a] r IH]; cbn [flat_map map fst] in *; [constructor|].
    inversion N as [|? ? N1 N2]; subst. specialize (IH N2). rewrite map_app.
    assert (NI : forall y, In y (map fst (flat_map (fun ka : Z * account => match d (fst ka) with | Some (DOO oo) => if (oo_flags oo =? OO_FLAGS) && (oo_market oo =? k) then [(fst ka, oo)] else [] | _ => [] end) r)) -> In y (map fst r)).
    { intros y Hy. rewrite in_map_iff in Hy. destruct Hy as ([y' oo] & <- & Hy). rewrite in_flat_map in Hy. destruct Hy as (ka & I1 & I2).
      destruct (d (fst ka)) as [[]|]; try contradiction. destruct (_ && _); [|contradiction]. destruct I2 as [[= <- <-]|[]]. cbn [fst]. apply (in_map fst) in I1. exact I1. }
    destruct (d x) as [[]|]; try exact IH. destruct (_ && _); [|exact IH]. cbn [map fst app]. constructor; [|exact IH]. intros C. apply N1, NI, C.
  - intros x oo. unfold accounts_of. rewrite in_flat_map. split.
    + intros (ka & I1 & I2). destruct (dexd ex_env s (fst ka)) as [[]|] eqn:E; try contradiction.
      destruct (Z.eqb_spec (oo_flags oo0) OO_FLAGS), (Z.eqb_spec (oo_market oo0) k); cbn [andb] in I2; try contradiction. destruct I2 as [[= <- <-]|[]]. auto.
    + intros (H1 & H2 & H3). destruct (dexd_in _ _ _ H1) as (I & _). exists (x, sget s x). split; [assumption|]. cbn [fst]. rewrite H1, H2, H3, !Z.eqb_refl. left. reflexivity.
Qed.
Definition of_look (w : store) (k : Z) : market * astate * list (Z * open_orders) :=
  match look w k with Some x => x | None => (mkMarket 0 0 0 0 0 0 0 0 0 0 0 0 0 0 0 0 0 0 0 0 0 0 0, mkA [] [] [], []) end.
(** Market 10 after the trade, before the crank. *)
Definition w4_m : market := Eval vm_compute in fst (fst (of_look w4 10)).
Definition w4_A : astate := Eval vm_compute in snd (fst (of_look w4 10)).
Definition w4_L : list (Z * open_orders) := Eval vm_compute in snd (of_look w4 10).
Lemma w4_seen : seen ex_env w4 10 w4_m w4_A w4_L.
Proof. apply look_seen; vm_compute; reflexivity. Qed.
Lemma w4_usable : usable w4_m. Proof. unfold usable. vm_compute. repeat split; discriminate. Qed.
(** The same before the trade (Alice's two asks rest) and after the crank. *)
Definition w3_m : market := Eval vm_compute in fst (fst (of_look w3 10)).
Definition w3_A : astate := Eval vm_compute in snd (fst (of_look w3 10)).
Definition w3_L : list (Z * open_orders) := Eval vm_compute in snd (of_look w3 10).
Lemma w3_seen : seen ex_env w3 10 w3_m w3_A w3_L.
Proof. apply look_seen; vm_compute; reflexivity. Qed.
Lemma w3_usable : usable w3_m. Proof. unfold usable. vm_compute. repeat split; discriminate. Qed.
Definition w5_m : market := Eval vm_compute in fst (fst (of_look w5 10)).
Definition w5_A : astate := Eval vm_compute in snd (fst (of_look w5 10)).
Definition w5_L : list (Z * open_orders) := Eval vm_compute in snd (of_look w5 10).
Lemma w5_seen : seen ex_env w5 10 w5_m w5_A w5_L.
Proof. apply look_seen; vm_compute; reflexivity. Qed.
Lemma w5_usable : usable w5_m. Proof. unfold usable. vm_compute. repeat split; discriminate. Qed.
(** Market 30 with two resting asks. *)
Definition w11_m : market := Eval vm_compute in fst (fst (of_look w11 30)).
Definition w11_A : astate := Eval vm_compute in snd (fst (of_look w11 30)).
Definition w11_L : list (Z * open_orders) := Eval vm_compute in snd (of_look w11 30).
Lemma w11_seen : seen ex_env w11 30 w11_m w11_A w11_L.
Proof. apply look_seen; vm_compute; reflexivity. Qed.
Lemma w11_usable : usable w11_m. Proof. unfold usable. vm_compute. repeat split; discriminate. Qed.
(** Market 30 with two final events. *)
Definition w12_m : market := Eval vm_compute in fst (fst (of_look w12 30)).
Definition w12_A : astate := Eval vm_compute in snd (fst (of_look w12 30)).
Definition w12_L : list (Z * open_orders) := Eval vm_compute in snd (of_look w12 30).
Lemma w12_seen : seen ex_env w12 30 w12_m w12_A w12_L.
Proof. apply look_seen; vm_compute; reflexivity. Qed.
Lemma w12_usable : usable w12_m. Proof. unfold usable. vm_compute. repeat split; discriminate. Qed.
(** Running a transaction that succeeds. *)
Definition succeeds (r : res store) : bool := match r with Ok _ => true | _ => false end.
Lemma succeeds_ok r : succeeds r = true -> exists s', r = Ok s'.
Proof. destruct r; (discriminate || eauto). Qed.
