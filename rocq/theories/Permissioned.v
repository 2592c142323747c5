(** The example program for permissioned markets: dex/tests/permissioned/programs/permissioned-markets/src/lib.rs, a proxy
    with the middlewares Logger, Identity, ReferralFees and OpenOrdersPda.  Identity is the example's own.  Left out: Anchor's
    dispatch in front of [entry], which takes calls that begin with the eight bytes of its IDL tag; those bytes never decode
    to an instruction of the dex. *)
From Verif Require Import Base Fees Queue Codec Critbit Market Matching Core Instr Store Process Proxy Client.

(** lib.rs:268-271 *)
Definition referral_id : Z := 34571744064035226526030945967495821234028198729393085618279200057853658702705.
(** verify_and_strip_auth, verify_revoked_and_strip_auth, lib.rs:181-203; the rent sysvar stands for a token of identity *)
Definition with_token (acc : list meta) : res (list meta) :=
  a <- at_ acc 0 ;; _ <- check (mk a =? rent_id) EOther ;; Ok (skipn 1 acc).
Definition with_revoked (acc : list meta) : res (list meta) :=
  a <- at_ acc 0 ;; _ <- check (negb (mk a =? rent_id)) EOther ;; Ok (skipn 1 acc).
(** Identity, lib.rs:85-178: the accounts passed on and the addresses the program signs for.  [prune k] is the address
    [find_program_address] finds for the seeds of prune_authority! (lib.rs:207-262), [None] if it panics. *)
Definition identity (prune : Z -> option Z) (i : instr) (acc : list meta) : res (list meta * list Z) :=
  match i with
  | IInitOO | INewOrderV3 _ | ICancelV2 _ _ | ICancelByCid _ | ISettleFunds | ICloseOO => l <- with_token acc ;; Ok (l, [])
  | IPrune _ =>
      l <- with_revoked acc ;;
      mkt <- at_ l 0 ;;
      p <- unwrap (prune (mk mkt)) ;;
      a <- at_ l 3 ;;
      Ok (set_nth 3 (mkMeta (mk a) true) l, [p])
  | IConsumePermissioned _ =>
      l <- with_revoked acc ;;
      _ <- passert (3 <=? length l)%nat ;;
      mkt <- at_ l (length l - 3) ;;
      p <- unwrap (prune (mk mkt)) ;;
      a <- at_ l (length l - 1) ;;
      Ok (set_nth (length l - 1) (mkMeta (mk a) true) l, [p])
  | _ => Ok (acc, [])
  end.
(** As [call_dex], with the addresses of Identity's seeds among those the program signs for. *)
Definition call_dex_as (e : env) (px : pxenv) (c : clock) (s : store) (callers accts : list meta) (own : list Z) (seeds : list seed) (i : instr) : res store :=
  pdas <- ok_or (seed_keys px seeds) EOther ;;
  _ <- check (forallb (may_sign callers (own ++ pdas)) accts) EOther ;;
  process_bytes e c s (pack i) (merge accts).
(** entry, lib.rs:59-69, with MarketProxy::run, proxy.rs:36-196; Identity's fallback is called for anything not relayed *)
Definition entry (e : env) (px : pxenv) (prune : Z -> option Z) (c : clock) (s : store) (ms : list meta) (data : bytes) : res store :=
  match ms with
  | [] => Panic
  | dexp :: acc =>
      _ <- check (mk dexp =? e_prog e) EOther ;;
      '(mws, d) <- instruct [MLogger; MReferral referral_id; MPda 0 0] data ;;
      match unpack d with
      | None => _ <- with_token acc ;; Ok s
      | Some i =>
          match relayed i with
          | None => _ <- with_token acc ;; Ok s
          | Some n =>
              _ <- check (n <=? length acc)%nat EOther ;;
              '(l, own) <- identity prune i acc ;;
              x <- handle_all e px ms i mws (mkCtx s l [] [] []) ;;
              s1 <- call_tokens (x_store x) ms (x_pre x) ;;
              s2 <- call_dex_as e px c s1 ms (x_accts x) own (x_seeds x) i ;;
              call_tokens s2 ms (x_post x)
          end
      end
  end.
