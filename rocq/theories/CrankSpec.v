(** What the crank program is for: the vocabulary of its properties.  Nothing here is part of the program. *)
From Verif Require Import Base Fees ListSum Queue Codec Critbit CritbitSlab Market Matching Slots MatchSteps Ledger MatchSpec Core Instr Store Process StoreProofs World WorldSpec Layout LayoutSpec Client ClientSpec Crank.

(** The keys of market [k], with [p] the address that owns its vaults. *)
Definition keys_of (k : Z) (m : market) (p : Z) : mkeys := mkKeys k (m_req_q m) (m_event_q m) (m_bids m) (m_asks m) (m_coin_vault m) (m_pc_vault m) p.
(** The bytes of the two queues as the node returns them.  The head of the request queue is where InitializeMarket put it: no
    instruction takes anything from that queue. *)
Record fetched (s : store) (m : market) (eb rb : bytes) : Prop := mkFetched {
  ft_events : LayoutSpec.holds s (m_event_q m) eb;
  ft_requests : LayoutSpec.holds s (m_req_q m) rb;
  ft_head : num rb 13 8 = 0 }.
(** Instructions sent one after the other, none of them refused. *)
Fixpoint all_run (e : env) (c : clock) (s : store) (l : list cinstr) : res store :=
  match l with [] => Ok s | ci :: r => s1 <- process_bytes e c s (ci_data ci) (as_given ci) ;; all_run e c s1 r end.
(** How many different accounts the events belong to. *)
Definition distinct (evs : list event_view) : Z := zlen (nodup Z.eq_dec (map ev_owner evs)).
(** The first [j] events: as many as there are, at most [lim], of at most [n] accounts. *)
Definition as_far_as (n lim : Z) (evs : list event_view) (j : nat) : Prop :=
  (j <= length evs)%nat /\ Z.of_nat j <= lim /\ distinct (firstn j evs) <= n /\
  (j = length evs \/ Z.of_nat j = lim \/ n < distinct (firstn (S j) evs)).
(** A turn of the loop that has no reason to wait. *)
Definition has_work (o : c_opts) (slot cranked : Z) (recent : bool) (evs : list event_view) : Prop :=
  cranked < slot /\ evs <> [] /\ (recent = true -> co_max_len o <= zlen evs).
(** [n] turns of the loop on market [k], nobody else interfering: each fetches the two queues, has no reason to wait unless the
    queue is empty, and what it sends is carried out. *)
Inductive turns (e : env) (c : clock) (o : c_opts) (k : Z) (m : market) (p cw pw : Z) : nat -> store -> store -> Prop :=
| turns_none s : turns e c o k m p cw pw 0 s s
| turns_one n s s1 s' eb rb txs slot cranked : fetched s m eb rb -> cranked < slot ->
    c_turn o (e_prog e) (keys_of k m p) cw pw slot cranked false eb rb = Ok txs -> all_run e c s txs = Ok s1 -> turns e c o k m p cw pw n s1 s' ->
    turns e c o k m p cw pw (S n) s s'.

(** An address where there is no account yet, and somebody who can pay [l] lamports. *)
Definition fresh (s : store) (x : Z) : Prop := x <> 0 /\ a_prog (sget s x) = 0 /\ a_len (sget s x) = 0 /\ a_lamports (sget s x) = 0.
Definition payer_of (s : store) (p l : Z) : Prop := a_prog (sget s p) = 0 /\ a_len (sget s p) = 0 /\ l <= a_lamports (sget s p).
