(** C82.  The program does not abort, except in four cases that can be seen beforehand. *)
From Verif Require Import Base Fees ListSum Codec Critbit CritbitSlab Market Matching Slots MatchSteps Ledger MatchSpec Core Instr InstrProofs Store Process StoreProofs World WorldInv WorldSpec WorldMain PlaceSpec ReplaceErrorSpec AbortSpec AbortProofs WorldExample ExampleAuth ExampleAbsent.

(** Whatever bytes and accounts a transaction names, it works or fails with an error, and no addition, multiplication, unwrap or
    assertion in the code goes wrong.  The exceptions: an instruction that was removed, a replace with fewer than eight accounts,
    an unused account of the wrong size given as open-orders account, and a take that offers 2^64 units or more (which aborts only if the bids it meets are for that much). *)
Theorem C82_only_these_abort : forall e, env_ok e -> forall s c b ms, history e s -> no_overflow e s -> amounts_small e s -> is_bytes b -> legal e ms ->
  (forall a m, In a ms -> dexd e s (mk a) = Some (DMarket m) -> usable m) ->
  process_bytes e c s b ms = Panic -> exists i, unpack b = Some i /\ abort_reason e s i ms.
Proof. exact only_reasons. Qed.
Print Assumptions C82_only_these_abort.
(** The removed instructions always abort, and so does a replace with too few accounts. *)
Theorem C82_removed_aborts : forall e c s i ms, removed i -> process e c s i ms = Panic.
Proof. exact removed_aborts. Qed.
Print Assumptions C82_removed_aborts.
Theorem C82_short_replace_aborts : forall e c s i ixs ms, replaces i ixs -> (length ms < 8)%nat -> process e c s i ms = Panic.
Proof. exact short_aborts. Qed.
Print Assumptions C82_short_replace_aborts.

Definition amounts_b (s : store) : bool := forallb (fun ka =>
  (a_lamports (snd ka) <? 2 ^ 60) &&
  match a_data (snd ka) with DToken t => t_amount t <? 2 ^ 59 | DOO oo => (oo_coin_total oo <? 2 ^ 59) && (oo_pc_total oo <? 2 ^ 59) | _ => true end) s.
Lemma amounts_small_ok s : amounts_b s = true -> amounts_small ex_env s.
Proof.
  unfold amounts_b. rewrite forallb_forall. intros H. split; [|split].
  - intros v t T. unfold token_at in T. destruct (sget_cases s v) as [E|E]; [rewrite E in T; discriminate|]. specialize (H _ E). cbn [snd] in H.
    destruct (a_prog (sget s v) =? spl_id); [|discriminate]. destruct (a_data (sget s v)); try discriminate. injection T as ->. lia.
  - intros x oo E. destruct (dexd_in _ _ _ E) as (I & DA & _). specialize (H _ I). cbn [snd] in H. rewrite DA in H. lia.
  - intros x. destruct (sget_cases s x) as [E|E]; [rewrite E; cbn; lia|]. specialize (H _ E). cbn [snd] in H. lia.
Qed.
(** A state in which all this holds, transactions that work, fail, and abort for the first three reasons; the fourth is below. *)
Definition ab_take (sd : side) (qty : Z) : bytes := pack (ISendTake (mkTakeIx sd 1 qty 1000 0 0 65535)).
Definition ab_ms := map k_ [10; 11; 12; 13; 14; 112; 113] ++ [s_ 110] ++ map k_ [15; 16; spl_id; 900].
Definition ab_bid : bytes := pack (INewOrderV3 (mkOrderIx Bid 40 2 100000 DecrementTake Limit 77 65535 I64_MAX)).
Example C82_case : env_ok ex_env /\ history ex_env w3 /\ no_overflow ex_env w3 /\ amounts_small ex_env w3 /\ is_bytes (ab_take Ask 5) /\ legal ex_env ab_ms /\
  (forall a m, In a ab_ms -> dexd ex_env w3 (mk a) = Some (DMarket m) -> usable m) /\
  (let run := process_bytes ex_env ex_clock w3 in
   (exists s', run ab_bid (ms_order 111 113 110) = Ok s') /\ run ab_bid (ms_order 111 103 110) = Err ETransferFailed /\ (exists er, run (ab_take Ask 5) (map k_ [10]) = Err er) /\
   run ab_bid (ms_order 31 113 110) = Panic /\
   run (pack (IReplaceMany [])) (map k_ [10; 111]) = Panic /\ run (pack (ICancelByCidOld 5)) (map k_ [10; 111]) = Panic) /\
  misshapen ex_env w3 31.
Proof.
  split; [exact ex_env_ok|]. split; [exact w3_h|]. split; [apply guard_ok; vm_compute; reflexivity|]. split; [apply amounts_small_ok; vm_compute; reflexivity|]. split; [apply bytes_ok; vm_compute; reflexivity|]. split; [apply legal_ok; vm_compute; reflexivity|].
  split. { intros a m I E. unfold ab_ms in I. cbn [map app In] in I. pose proof (sn_mkt _ _ _ _ _ _ w3_seen) as E10. 
    repeat (destruct I as [<-|I]; [first [assert (m = w3_m) as -> by (cbn [mk k_] in E; congruence); exact w3_usable|exfalso; vm_compute in E; discriminate E]|]). destruct I. }
  split. { cbv zeta. split; [apply succeeds_ok; vm_compute; reflexivity|]. split; [vm_compute; reflexivity|]. split; [eexists; vm_compute; reflexivity|]. repeat split; vm_compute; reflexivity. }
  split; [vm_compute; reflexivity|vm_compute; discriminate].
Qed.

(** The take: a market with lots of 2^62 units, ten lots bid for, and somebody sells five. *)
Definition ab_1 : store := Eval vm_compute in transact ex_env ex_clock w0 (pack (IInitMarket (mkInitIx (2 ^ 62) 1 0 3 100))) ms1.
Lemma ab_1_h : history ex_env ab_1. Proof. next w0_h w0 (pack (IInitMarket (mkInitIx (2 ^ 62) 1 0 3 100))) ms1. Qed.
Definition ab_ten : bytes := pack (INewOrderV3 (mkOrderIx Bid 1 10 100 DecrementTake Limit 77 65535 I64_MAX)).
Definition ab_2 : store := Eval vm_compute in transact ex_env ex_clock ab_1 ab_ten (ms_order 111 113 110).
Lemma ab_2_h : history ex_env ab_2. Proof. next ab_1_h ab_1 ab_ten (ms_order 111 113 110). Qed.
Definition ab_sell (qty : Z) : bytes := pack (ISendTake (mkTakeIx Ask 1 qty 1 0 0 65535)).
Definition ab_sells := map k_ [10; 11; 12; 13; 14; 142; 143] ++ [s_ 140] ++ map k_ [15; 16; spl_id; 900].
Example C82_take_case : history ex_env ab_2 /\ no_overflow ex_env ab_2 /\ amounts_small ex_env ab_2 /\ is_bytes (ab_sell 5) /\ legal ex_env ab_sells /\
  (exists m, dexd ex_env ab_2 10 = Some (DMarket m) /\ usable m /\ B64 <= 5 * m_coin_lot m) /\
  process_bytes ex_env ex_clock ab_2 (ab_sell 5) ab_sells = Panic /\ process_bytes ex_env ex_clock ab_2 (ab_sell 3) ab_sells = Err EInsufficientFunds.
Proof.
  split; [exact ab_2_h|]. split; [apply guard_ok; vm_compute; reflexivity|]. split; [apply amounts_small_ok; vm_compute; reflexivity|]. split; [apply bytes_ok; vm_compute; reflexivity|]. split; [apply legal_ok; vm_compute; reflexivity|].
  split. { eexists. split; [vm_compute; reflexivity|]. split; [unfold usable; vm_compute; repeat split; discriminate|vm_compute; discriminate]. }
  split; vm_compute; reflexivity.
Qed.
