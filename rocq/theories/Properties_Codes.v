(** C68: error numbers.  [published] is the table clients know. *)
From Verif Require Import Base Errors ErrorsProofs.

Definition published (c : dex_code) : Z :=
  match c with
  | CInvalidMarketFlags => 0 | CInvalidAskFlags => 1 | CInvalidBidFlags => 2 | CInvalidQueueLength => 3 | COwnerAccountNotProvided => 4 
  | CConsumeEventsQueueFailure => 5 | CWrongCoinVault => 6 | CWrongPcVault => 7 | CWrongCoinMint => 8 | CWrongPcMint => 9 | CCoinVaultProgramId => 10 
  | CPcVaultProgramId => 11 | CCoinMintProgramId => 12 | CPcMintProgramId => 13 | CWrongCoinMintSize => 14 | CWrongPcMintSize => 15 
  | CWrongCoinVaultSize => 16 | CWrongPcVaultSize => 17 | CUninitializedVault => 18 | CUninitializedMint => 19 | CCoinMintUninitialized => 20 
  | CPcMintUninitialized => 21 | CWrongMint => 22 | CWrongVaultOwner => 23 | CVaultHasDelegate => 24 | CAlreadyInitialized => 25 
  | CWrongAccountDataAlignment => 26 | CWrongAccountDataPaddingLength => 27 | CWrongAccountHeadPadding => 28 | CWrongAccountTailPadding => 29 
  | CRequestQueueEmpty => 30 | CEventQueueTooSmall => 31 | CSlabTooSmall => 32 | CBadVaultSignerNonce => 33 | CInsufficientFunds => 34 
  | CSplAccountProgramId => 35 | CSplAccountLen => 36 | CWrongFeeDiscountAccountOwner => 37 | CWrongFeeDiscountMint => 38 | CCoinPayerProgramId => 39 
  | CPcPayerProgramId => 40 | CClientIdNotFound => 41 | CTooManyOpenOrders => 42 | CFakeErrorSoWeDontChangeNumbers => 43 | CBorrowError => 44 
  | CWrongOrdersAccount => 45 | CWrongBidsAccount => 46 | CWrongAsksAccount => 47 | CWrongRequestQueueAccount => 48 | CWrongEventQueueAccount => 49 
  | CRequestQueueFull => 50 | CEventQueueFull => 51 | CMarketIsDisabled => 52 | CWrongSigner => 53 | CTransferFailed => 54 | CClientOrderIdIsZero => 55 
  | CWrongRentSysvarAccount => 56 | CRentNotProvided => 57 | COrdersNotRentExempt => 58 | COrderNotFound => 59 | COrderNotYours => 60 
  | CWouldSelfTrade => 61 | CInvalidOpenOrdersAuthority => 62 | COrderMaxTimestampExceeded => 63 | CMinAmountNotMet => 64 | CUnknown => 1000 
  | CAssertionError => 1001 
  end.

Theorem C68_every_error_has_its_published_number : forall c, to_program_error (ErrorCode c) = Custom (published c).
Proof. intros []; reflexivity. Qed.
Print Assumptions C68_every_error_has_its_published_number.
Theorem C68_no_two_errors_share_a_number : forall c d, to_u32 c = to_u32 d -> c = d.
Proof. exact to_u32_inj. Qed.
Print Assumptions C68_no_two_errors_share_a_number.
(** Reading a number back gives the error; a number that is no error's reads as a failed assertion. *)
Theorem C68_numbers_read_back : forall z, (exists c, published c = z /\ of_u32 z = c) \/ ((forall c, published c <> z) /\ of_u32 z = CAssertionError).
Proof. exact (read_back published C68_every_error_has_its_published_number). Qed.
Print Assumptions C68_numbers_read_back.
(** A failed check names its source file and line, and is never mistaken for another error. *)
Theorem C68_failed_checks_name_their_line : forall line f, 0 <= line < 65536 ->
  exists z, to_program_error (of_assertion line f) = Custom z /\ 0 <= z < 4294967296 /\ z mod 65536 = line /\ z / 16777216 = file_id f /\ (forall c, to_u32 c <> z) /\ of_u32 z = CAssertionError /\
  forall line' f', 0 <= line' < 65536 -> to_program_error (of_assertion line' f') = Custom z -> line' = line /\ f' = f.
Proof. exact assertion_ok. Qed.
Print Assumptions C68_failed_checks_name_their_line.
Theorem C68_files_differ : forall f g, file_id f = file_id g -> f = g.
Proof. exact file_id_inj. Qed.
Print Assumptions C68_files_differ.
(** The errors of C67 have different numbers. *)
Theorem C68_modelled_errors_differ : forall e d c, err_code e = Some c -> err_code d = Some c -> e = d.
Proof. exact err_code_inj. Qed.
Print Assumptions C68_modelled_errors_differ.
Example C68_case : to_program_error (ErrorCode CWouldSelfTrade) = Custom 61 /\ of_u32 61 = CWouldSelfTrade /\ of_u32 65 = CAssertionError /\
  to_program_error (of_assertion 1234 FMatching) = Custom 33555666 /\ of_u32 33555666 = CAssertionError.
Proof. vm_compute. repeat split. Qed.
