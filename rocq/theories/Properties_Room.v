(** C88.  [limited e S C s]: of no token do all accounts of [s] together hold more than [S], the program's event queues have at
    most [C] places and its accounts room for no more, and [S] times [C] and once more is below 2^64 (RoomSpec.v). *)
From Verif Require Import Base Fees ListSum Queue Codec Critbit CritbitSlab Market Slots MatchSteps Ledger MatchSpec Core Instr InstrProofs Store Process StoreProofs Bundle World WorldSpec WorldExample WorldMain WorldRights TotalSpec ScarceSpec ScarceProofs Properties_Bundle CountSpec CountProofs Properties_Count RoomSpec RoomProofs RoomStore.

(** No instruction, in any state, gives an event queue more or fewer places: it has as many as before, or it was a blank
    account and has as many as there was room for. *)
Theorem C88_places_kept : forall e c s i ms s' y q', process e c s i ms = Ok s' -> dexd e s' y = Some (DEventQ q') ->
  (exists q, dexd e s y = Some (DEventQ q) /\ zlen (q_buf q') = zlen (q_buf q)) \/ (dexd e s y = Some DZero /\ zlen (q_buf q') = event_slots (a_len (sget s y))).
Proof. exact places_kept. Qed.
Print Assumptions C88_places_kept.
(** So the program cannot leave the limits: only those who mint tokens or make large accounts can. *)
Theorem C88_limit_lasts : forall e S C s c b ms, env_ok e -> anytime e s -> limited e S C s -> limited e S C (transact e c s b ms).
Proof. exact limit_lasts. Qed.
Print Assumptions C88_limit_lasts.
(** A transaction of any instructions that starts within them needs no further condition in between... *)
Theorem C88_limit_lasts_in_a_transaction : forall e S C n s l, env_ok e -> counted e (limited e S C) n s -> limited e S C s -> sized s ->
  Forall (fun c => is_bytes (ca_bytes c) /\ legal e (ca_metas c)) l ->
  limited e S C (bundle e s l) /\ exists n', (n' <= n + length l)%nat /\ counted e (limited e S C) n' (bundle e s l).
Proof. exact limit_bundle. Qed.
Print Assumptions C88_limit_lasts_in_a_transaction.
(** ... and everything proved of guarded histories holds within them. *)
Theorem C88_limit_suffices : forall e S C n s, env_ok e -> counted e (limited e S C) n s -> 8 * Z.of_nat n + 16 < B64 -> history e s /\ (limited e S C s -> no_overflow e s).
Proof. exact limit_suffices. Qed.
Print Assumptions C88_limit_suffices.

(** No more than 10^12 of any token, and event queues of up to 120000 places (10 MiB). *)
Definition li_S : Z := 1000000000000.
Definition li_C : Z := 120000.
Definition mints (s : store) : list Z := flat_map (fun ka => match a_data (snd ka) with DToken t => [t_mint t] | _ => [] end) s.
Definition limited_b (s : store) : bool :=
  forallb (fun mint => zsum (holding mint s) (nodup Z.eq_dec (map fst s)) <=? li_S) (mints s) &&
  forallb (fun ka => (event_slots (a_len (sget s (fst ka))) <=? li_C) && match dexd ex_env s (fst ka) with Some (DEventQ q) => zlen (q_buf q) <=? li_C | _ => true end) s.
Lemma zsum_none (f : Z -> Z) l : (forall x, f x = 0) -> zsum f l = 0.
Proof. intros H. induction l as [|x r IH]; [reflexivity|]. change (zsum f (x :: r)) with (f x + zsum f r). rewrite H, IH. reflexivity. Qed.
Lemma limited_ok s : limited_b s = true -> limited ex_env li_S li_C s.
Proof.
  unfold limited_b. intros H. apply andb_prop in H. destruct H as [H1 H2]. rewrite forallb_forall in H1, H2. constructor.
  - intros mint L A. rewrite (holders_same s mint L _ A (holders_exist s)). destruct (in_dec Z.eq_dec mint (mints s)) as [I|N]; [apply Z.leb_le, H1, I|].
    rewrite zsum_none; [unfold li_S; lia|]. intros x. unfold holding. destruct (token_at s x) as [t|] eqn:T; [|reflexivity]. destruct (Z.eqb_spec (t_mint t) mint) as [E|]; [|reflexivity]. destruct N.
    unfold mints. apply in_flat_map. unfold token_at in T. destruct (sget_split s x) as [Q|Q]; [rewrite Q in T; discriminate|]. exists (x, sget s x). split; [exact Q|]. cbn [snd].
    destruct (a_prog (sget s x) =? spl_id); [|discriminate]. destruct (a_data (sget s x)); try discriminate. injection T as ->. left. exact E.
  - intros y q Y. destruct (dexd_in _ _ _ Y) as (I & _). specialize (H2 _ I). cbn [fst] in H2. rewrite Y in H2. apply andb_prop in H2. destruct H2 as [_ H2]. apply Z.leb_le. exact H2.
  - intros y d Y. destruct (dexd_in _ _ _ Y) as (I & _). specialize (H2 _ I). cbn [fst] in H2. apply andb_prop in H2. destruct H2 as [H2 _]. apply Z.leb_le. exact H2.
  - unfold li_S, li_C. lia.
Qed.
Ltac lnext H s b ms := match goal with |- counted _ _ _ ?w => replace w with (transact ex_env ex_clock s b ms) by (vm_compute; reflexivity) end;
  apply cn_tx; [exact H|apply limited_ok|apply sized_ok|apply bytes_ok|apply legal_ok]; vm_compute; reflexivity.
(** The history and the transaction of C85. *)
Example C88_case : counted ex_env (limited ex_env li_S li_C) 3 w3 /\ limited ex_env li_S li_C w3 /\ sized w3 /\
  Forall (fun c => is_bytes (ca_bytes c) /\ legal ex_env (ca_metas c)) bu_l /\ bundle ex_env w3 bu_l = w6 /\ w6 <> w3 /\
  exists k m q, dexd ex_env w3 k = Some (DMarket m) /\ dexd ex_env w3 (m_event_q m) = Some (DEventQ q) /\ zlen (q_buf q) = 128.
Proof.
  split; [|split; [apply limited_ok; vm_compute; reflexivity|split; [apply sized_ok; vm_compute; reflexivity|split; [|split; [vm_compute; reflexivity|split; [vm_compute; discriminate|]]]]]].
  - assert (W0 : counted ex_env (limited ex_env li_S li_C) 0 w0) by (apply cn_start, genesis_ok; vm_compute; reflexivity).
    assert (W1 : counted ex_env (limited ex_env li_S li_C) 1 w1) by (lnext W0 w0 (pack ix1) ms1).
    assert (W2 : counted ex_env (limited ex_env li_S li_C) 2 w2) by (lnext W1 w1 (pack ix2) (ms_order 101 102 100)).
    lnext W2 w2 (pack ix3) (ms_order 101 102 100).
  - repeat (constructor; [split; [apply bytes_ok; vm_compute; reflexivity|apply legal_ok; vm_compute; reflexivity]|]). constructor.
  - eexists 10, _, _. split; [vm_compute; reflexivity|]. split; [vm_compute; reflexivity|vm_compute; reflexivity].
Qed.
