(** The accounts a pool program sees, and the instructions of the token program it invokes
    (external, spl-token processor.rs).  Multisignature owners and wrapped SOL are left out. *)
From Verif Require Import Base Fees Instr Store.

(** An initialised mint. *)
Record mint := mkMint { mi_auth : option Z; mi_supply : Z }.
Inductive pdata := PBytes (b : bytes) | PToken (t : token) | PMint (m : mint).
Record pacct := mkPacct { pa_prog : Z; pa_lamports : Z; pa_data : pdata }.
Definition pdata_len (d : pdata) : Z := match d with PBytes b => zlen b | PToken _ => 165 | PMint _ => 82 end.

Definition pstore := list (Z * pacct).
Definition p_none : pacct := mkPacct 0 0 (PBytes []).
Fixpoint pfind (s : pstore) (k : Z) : option pacct :=
  match s with [] => None | (k', a) :: r => if k' =? k then Some a else pfind r k end.
Definition pget (s : pstore) (k : Z) : pacct := match pfind s k with Some a => a | None => p_none end.
Fixpoint pput (s : pstore) (k : Z) (a : pacct) : pstore :=
  match s with [] => [(k, a)] | (k', a') :: r => if k' =? k then (k, a) :: r else (k', a') :: pput r k a end.
Definition pset (s : pstore) (k : Z) (d : pdata) : pstore := pput s k (mkPacct (pa_prog (pget s k)) (pa_lamports (pget s k)) d).

(** Token accounts and mints as the token program knows them. *)
Definition ptoken (s : pstore) (k : Z) : option token :=
  if pa_prog (pget s k) =? spl_id then match pa_data (pget s k) with PToken t => Some t | _ => None end else None.
Definition pmint (s : pstore) (k : Z) : option mint :=
  if pa_prog (pget s k) =? spl_id then match pa_data (pget s k) with PMint m => Some m | _ => None end else None.

(** process_transfer, as in Store.v *)
Definition p_transfer (s : pstore) (src dst auth : Z) (signed : bool) (amt : Z) : res pstore :=
  ts <- ok_or (ptoken s src) ETransferFailed ;;
  td <- ok_or (ptoken s dst) ETransferFailed ;;
  _ <- check ((t_state ts =? 1) && (t_state td =? 1)) ETransferFailed ;;
  _ <- check (amt <=? t_amount ts) EInsufficientFunds ;;
  _ <- check (t_mint ts =? t_mint td) ETransferFailed ;;
  _ <- check signed ETransferFailed ;;
  _ <- check (is_delegate ts auth || (t_owner ts =? auth)) ETransferFailed ;;
  _ <- check (negb (is_delegate ts auth) || (amt <=? t_delegated ts)) EInsufficientFunds ;;
  if src =? dst then Ok s
  else
    _ <- check (t_amount td + amt <? B64) ETransferFailed ;;
    let ts1 := if is_delegate ts auth then use_delegate ts amt else ts in
    Ok (pset (pset s src (PToken (set_amount ts1 (t_amount ts - amt)))) dst (PToken (set_amount td (t_amount td + amt)))).
(** process_mint_to *)
Definition p_mint_to (s : pstore) (mk_ dst auth : Z) (signed : bool) (amt : Z) : res pstore :=
  td <- ok_or (ptoken s dst) ETransferFailed ;;
  _ <- check (t_state td =? 1) ETransferFailed ;;
  _ <- check (t_mint td =? mk_) ETransferFailed ;;
  mi <- ok_or (pmint s mk_) ETransferFailed ;;
  _ <- check (opt_eqb (mi_auth mi) (Some auth) && signed) ETransferFailed ;;
  _ <- check ((t_amount td + amt <? B64) && (mi_supply mi + amt <? B64)) ETransferFailed ;;
  Ok (pset (pset s dst (PToken (set_amount td (t_amount td + amt)))) mk_ (PMint (mkMint (mi_auth mi) (mi_supply mi + amt)))).
(** process_burn *)
Definition p_burn (s : pstore) (src mk_ auth : Z) (signed : bool) (amt : Z) : res pstore :=
  ts <- ok_or (ptoken s src) ETransferFailed ;;
  mi <- ok_or (pmint s mk_) ETransferFailed ;;
  _ <- check (t_state ts =? 1) ETransferFailed ;;
  _ <- check (amt <=? t_amount ts) EInsufficientFunds ;;
  _ <- check (t_mint ts =? mk_) ETransferFailed ;;
  _ <- check signed ETransferFailed ;;
  _ <- check (is_delegate ts auth || (t_owner ts =? auth)) ETransferFailed ;;
  _ <- check (negb (is_delegate ts auth) || (amt <=? t_delegated ts)) EInsufficientFunds ;;
  _ <- check (amt <=? mi_supply mi) ETransferFailed ;;
  let ts1 := if is_delegate ts auth then use_delegate ts amt else ts in
  Ok (pset (pset s src (PToken (set_amount ts1 (t_amount ts - amt)))) mk_ (PMint (mkMint (mi_auth mi) (mi_supply mi - amt)))).
(** process_approve *)
Definition p_approve (s : pstore) (src delegate auth : Z) (signed : bool) (amt : Z) : res pstore :=
  ts <- ok_or (ptoken s src) ETransferFailed ;;
  _ <- check (t_state ts =? 1) ETransferFailed ;;
  _ <- check ((t_owner ts =? auth) && signed) ETransferFailed ;;
  Ok (pset s src (PToken (mkToken (t_mint ts) (t_owner ts) (t_amount ts) (Some delegate) amt (t_state ts) (t_close ts)))).
