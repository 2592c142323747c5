(** C84: the program neither makes nor destroys tokens or lamports.  [transact] is any transaction at all: any bytes, any
    accounts and signers; there is no guard on the state.  [all_holders s K]: [K] lists every token account of [s] once. *)
From Verif Require Import Base Fees ListSum Queue Codec Critbit CritbitSlab Market Slots MatchSteps Ledger MatchSpec Core Instr Store Process StoreProofs World WorldSpec WorldAuth WorldExample ExampleAuth WorldMain WorldRights TotalSpec TotalProofs.

(** No token account appears or disappears, and the amounts of any token in all accounts together stay what they were. *)
Theorem C84_tokens_neither_made_nor_lost : forall e, env_ok e -> forall s c b ms, anytime e s -> let s' := transact e c s b ms in
  (forall v, token_at s v = None <-> token_at s' v = None) /\
  forall mint K, all_holders s K -> all_holders s' K /\ zsum (holding mint s') K = zsum (holding mint s) K.
Proof. exact tokens_total. Qed.
Print Assumptions C84_tokens_neither_made_nor_lost.
(** The lamports of all accounts named in the transaction, with any others, together stay what they were. *)
Theorem C84_lamports_neither_made_nor_lost : forall e, env_ok e -> forall s c b ms K, anytime e s -> NoDup K -> incl (map mk ms) K ->
  zsum (lamports (transact e c s b ms)) K = zsum (lamports s) K.
Proof. exact lamports_total. Qed.
Print Assumptions C84_lamports_neither_made_nor_lost.

(** Bob settles: token amounts move between the vaults, Bob's wallets and the referrer's. *)
Lemma token_in s v t : token_at s v = Some t -> In v (map fst s).
Proof.
  unfold token_at. destruct (sget_cases s v) as [E|E]; [rewrite E; discriminate|]. intros _. exact (in_map fst _ _ E).
Qed.
Definition to_K : list Z := Eval vm_compute in map fst w6.
Example C84_case : env_ok ex_env /\ anytime ex_env w6 /\ all_holders w6 to_K /\ transact ex_env ex_clock w6 (pack ISettleFunds) (ms_settle 111 110 112 113 [150]) = w7 /\
  holding 18 w6 16 > holding 18 w7 16 /\ holding 18 w6 113 < holding 18 w7 113 /\ zsum (holding 18 w6) to_K = 30000000.
Proof.
  split; [exact ex_env_ok|]. split; [exact (history_anytime _ _ w6_h)|]. split; [|vm_compute; repeat split].
  split; [|intros v t T; apply token_in in T; vm_compute in T; exact T].
  vm_compute; repeat constructor; cbn; intuition discriminate.
Qed.
(** An account is closed: its lamports go to the destination. *)
Example C84_close_case : anytime ex_env d4 /\ NoDup (map mk ms_close) /\ transact ex_env ex_clock d4 (pack ICloseOO) ms_close = d5 /\ exists x y, In x (map mk ms_close) /\ In y (map mk ms_close) /\
  0 < lamports d4 x /\ lamports d5 x = 0 /\ lamports d5 y = lamports d4 y + lamports d4 x.
Proof.
  split; [exact (history_anytime _ _ d4_h)|]. split; [vm_compute; repeat constructor; cbn; intuition discriminate|]. split; [vm_compute; reflexivity|].
  exists (mk (nth 0 ms_close (mkMeta 0 false))), (mk (nth 2 ms_close (mkMeta 0 false))). vm_compute. intuition.
Qed.
