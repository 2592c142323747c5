(** C31: a funded SendTake is refused only if it gets less than its minimum. *)
From Verif Require Import Base Fees ListSum Queue Codec Critbit Market Matching Slots Core CoreNew MatchSteps Ledger Instr Store Process StoreProofs World WorldInv WorldSpec WorldMain WorldExample OpenSpec PlaceSpec TakeSpec WorldTake.

(** The call goes through, with the same result, for every minimum up to what the book gives, and above that it is refused for this reason. *)
Theorem C31_only_the_minimum_refuses : forall e, env_ok e -> forall s k m A L, history e s -> seen e s k m A L -> usable m ->
  forall c sd price qty pc limit cw pw w p disc q, ~ disabled m ->
  0 < price < B64 -> 0 < qty < B64 -> 0 < pc < B64 -> 0 <= limit < 65536 ->
  let dep := may_spend sd qty pc (m_coin_lot m) in let src := spends_from sd cw pw in let dst := receives_in sd cw pw in
  dep < B64 -> can_pay s src w (pays_in m sd) dep -> wallet s dst (pays_out m sd) (held m sd) -> discount_ok s w disc ->
  (forall v, In v [cw; pw] -> v <> m_coin_vault m /\ v <> m_pc_vault m) -> ~ In w [k; m_req_q m; m_event_q m; m_bids m; m_asks m] ->
  e_pda e (m_nonce m) k = Some p -> thawed s (m_coin_vault m) -> thawed s (m_pc_vault m) ->
  (forall t, token_at s (pays_into m sd) = Some t -> t_amount t + dep < B64) ->
  dexd e s (m_event_q m) = Some (DEventQ q) ->
  zlen (a_evs A) + events_needed (book_of A (other sd)) sd price 0 AbortTransaction limit <= zlen (q_buf q) ->
  exists s' spent gain, 0 <= spent <= dep /\ 0 <= gain /\
    moves s s' [(src, pays_into m sd, spent); (pays_from m sd, dst, paid_out sd gain (m_coin_lot m))] /\
    forall mc mp, process e c s (ISendTake (mkTakeIx sd price qty pc mc mp limit))
      (mkMeta k false :: mkMeta (m_req_q m) false :: mkMeta (m_event_q m) false :: mkMeta (m_bids m) false :: mkMeta (m_asks m) false ::
       mkMeta cw false :: mkMeta pw false :: mkMeta w true :: map (fun y => mkMeta y false) ([m_coin_vault m; m_pc_vault m; spl_id; p] ++ disc)) =
      if minimum sd mc mp <=? gain then Ok s' else Err EMinAmountNotMet.
Proof. exact (fun e EO s k m A L H => take_succeeds e EO s k m A L (reachable_inv e EO s H)). Qed.
Print Assumptions C31_only_the_minimum_refuses.

(** ** The hypotheses are met *)
(** Bob buys 5 lots from the asks at 50 and 60, or sells one lot into the bid at 55; in both cases there is a minimum that is met and one that is not. *)
Definition take_cover (e : env) (s : store) (k : Z) (m : market) (A : astate) (sd : side) (price qty pc limit cw pw w p : Z) (q : queue event) : Prop :=
  ~ disabled m /\ 0 < price < B64 /\ 0 < qty < B64 /\ 0 < pc < B64 /\ 0 <= limit < 65536 /\
  let dep := may_spend sd qty pc (m_coin_lot m) in
  dep < B64 /\ can_pay s (spends_from sd cw pw) w (pays_in m sd) dep /\ wallet s (receives_in sd cw pw) (pays_out m sd) (held m sd) /\
  (forall v, In v [cw; pw] -> v <> m_coin_vault m /\ v <> m_pc_vault m) /\ ~ In w [k; m_req_q m; m_event_q m; m_bids m; m_asks m] /\
  e_pda e (m_nonce m) k = Some p /\ thawed s (m_coin_vault m) /\ thawed s (m_pc_vault m) /\
  (exists t, token_at s (pays_into m sd) = Some t /\ t_amount t + dep < B64) /\
  dexd e s (m_event_q m) = Some (DEventQ q) /\
  zlen (a_evs A) + events_needed (book_of A (other sd)) sd price 0 AbortTransaction limit <= zlen (q_buf q).
Definition bob_takes (sd : side) (price qty pc mc mp limit : Z) : instr := ISendTake (mkTakeIx sd price qty pc mc mp limit).
Definition bob_accounts := map k_ [10; 11; 12; 13; 14; 112; 113] ++ [s_ 110] ++ map k_ [15; 16; spl_id; 900].
Example C31_minimum_case :
  (exists q, history ex_env w3 /\ seen ex_env w3 10 w3_m w3_A w3_L /\ usable w3_m /\ take_cover ex_env w3 10 w3_m w3_A Bid 60 5 1000000 10 112 113 110 900 q /\
     (exists s', process ex_env ex_clock w3 (bob_takes Bid 60 5 1000000 5 0 10) bob_accounts = Ok s') /\
     process ex_env ex_clock w3 (bob_takes Bid 60 5 1000000 6 0 10) bob_accounts = Err EMinAmountNotMet) /\
  (exists q, history ex_env w4 /\ seen ex_env w4 10 w4_m w4_A w4_L /\ usable w4_m /\ take_cover ex_env w4 10 w4_m w4_A Ask 50 1 1 10 112 113 110 900 q /\
     (exists s', process ex_env ex_clock w4 (bob_takes Ask 50 1 1 0 1000 10) bob_accounts = Ok s') /\
     process ex_env ex_clock w4 (bob_takes Ask 50 1 1 0 55000 10) bob_accounts = Err EMinAmountNotMet).
Proof.
  split.
  - eexists. split; [exact w3_h|]. split; [exact w3_seen|]. split; [exact w3_usable|]. split; [|split; [apply succeeds_ok; vm_compute; reflexivity|vm_compute; reflexivity]].
    split; [vm_compute; discriminate|]. split; [lia|]. split; [lia|]. split; [lia|]. split; [lia|]. cbv zeta. split; [vm_compute; reflexivity|].
    split. { eexists. split; [vm_compute; reflexivity|]. split; [vm_compute; reflexivity|]. split; [vm_compute; reflexivity|]. split; [vm_compute; reflexivity|]. split; [vm_compute; discriminate|]. right. split; [vm_compute; discriminate|vm_compute; reflexivity]. }
    split. { eexists. split; [vm_compute; reflexivity|vm_compute; repeat split; reflexivity]. }
    split. { intros v [<-|[<-|[]]]; split; vm_compute; discriminate. }
    split. { intros X. vm_compute in X. repeat (destruct X as [X|X]; [discriminate|]). exact X. }
    split; [vm_compute; reflexivity|]. split; [eexists; vm_compute; split; reflexivity|]. split; [eexists; vm_compute; split; reflexivity|].
    split; [eexists; split; [vm_compute; reflexivity|vm_compute; reflexivity]|]. split; [vm_compute; reflexivity|]. vm_compute. discriminate.
  - eexists. split; [exact w4_h|]. split; [exact w4_seen|]. split; [exact w4_usable|]. split; [|split; [apply succeeds_ok; vm_compute; reflexivity|vm_compute; reflexivity]].
    split; [vm_compute; discriminate|]. split; [lia|]. split; [lia|]. split; [lia|]. split; [lia|]. cbv zeta. split; [vm_compute; reflexivity|].
    split. { eexists. split; [vm_compute; reflexivity|]. split; [vm_compute; reflexivity|]. split; [vm_compute; reflexivity|]. split; [vm_compute; reflexivity|]. split; [vm_compute; discriminate|]. right. split; [vm_compute; discriminate|vm_compute; reflexivity]. }
    split. { eexists. split; [vm_compute; reflexivity|vm_compute; repeat split; reflexivity]. }
    split. { intros v [<-|[<-|[]]]; split; vm_compute; discriminate. }
    split. { intros X. vm_compute in X. repeat (destruct X as [X|X]; [discriminate|]). exact X. }
    split; [vm_compute; reflexivity|]. split; [eexists; vm_compute; split; reflexivity|]. split; [eexists; vm_compute; split; reflexivity|].
    split; [eexists; split; [vm_compute; reflexivity|vm_compute; reflexivity]|]. split; [vm_compute; reflexivity|]. vm_compute. discriminate.
Qed.
