(** Properties of the instruction encoding (C11). *)
From Verif Require Import Base Core Instr InstrProofs WireSpec WireProofs.

(** C11: whatever a client packs, the program reads back. *)
Theorem C11_roundtrip : forall i, wf_instr i -> unpack (pack i) = Some i.
Proof. exact pack_unpack. Qed.
Print Assumptions C11_roundtrip.
Example C11_roundtrip_nonvacuous :
  wf_instr (IReplaceMany [mkOrderIx Bid 5 6 7 CancelProvide PostOnly 8 9 (-1); mkOrderIx Ask 1 1 1 AbortTransaction Limit 0 0 I64_MAX]).
Proof. cbn. unfold wf_v3, nz64, u64, u16, I64_MAX. cbn. split; [lia|]. repeat constructor; cbn; lia. Qed.

(** C11: whatever bytes are accepted, the fields read are in range, and the bytes are exactly the
    packed form of what was read - apart from the two documented short forms, which are packed
    forms with their tail (the default timestamp, or zero client ids) left off. *)
Theorem C11_decode_exact : forall b i, is_bytes b -> unpack b = Some i ->
  wf_instr i /\ exists pad, b ++ pad = pack i /\ (pad = [] \/ short_form i pad).
Proof. exact unpack_pack. Qed.
Print Assumptions C11_decode_exact.
Example C11_decode_exact_nonvacuous :
  unpack [0; 18;0;0;0; 7;0;0;0;0;0;0;0; 0;1;0;0;0;0;0;0] = Some (ICancelByCids [7; 256; 0; 0; 0; 0; 0; 0]).
Proof. vm_compute. reflexivity. Qed.

(** C11: version byte and discriminant are always the ones of the instruction read. *)
Theorem C11_header : forall b i, is_bytes b -> unpack b = Some i -> exists r, b = 0 :: tag i :: 0 :: 0 :: 0 :: r.
Proof. exact unpack_header. Qed.
Print Assumptions C11_header.
Example C11_header_nonvacuous : unpack [0; 7;0;0;0] = Some IDisableMarket /\ unpack [1; 7;0;0;0] = None /\ unpack [0; 21;0;0;0] = None.
Proof. vm_compute. auto. Qed.

(** C11: the one thing a client can pack that is never read back: more than eight replacement orders. *)
Theorem C11_replace_limit : forall xs, (8 < length xs)%nat -> unpack (pack (IReplaceMany xs)) = None.
Proof. exact replace_many_limit. Qed.
Print Assumptions C11_replace_limit.
Example C11_replace_limit_nonvacuous : (8 < length (repeat (mkOrderIx Bid 5 6 7 CancelProvide PostOnly 8 9 1) 9))%nat.
Proof. cbn. lia. Qed.

(** C11: the wire format is the table of WireSpec.v, which gives the number of each instruction and the width, place and
    meaning of each field.  Whatever is read stands in the bytes in that form, up to what may be left off at the end; ... *)
Theorem C11_wire_format : forall b i, is_bytes b -> unpack b = Some i -> exists pad, written (wire i) (b ++ pad) /\ left_off i pad.
Proof. exact wire_read. Qed.
Print Assumptions C11_wire_format.
(** ... whatever is written in that form is read; ... *)
Theorem C11_wire_format_accepted : forall b i, is_bytes b -> wf_instr i -> written (wire i) b -> unpack b = Some i.
Proof. exact wire_accepted. Qed.
Print Assumptions C11_wire_format_accepted.
(** ... and clients write it. *)
Theorem C11_wire_format_packed : forall i, wf_instr i -> written (wire i) (pack i).
Proof. exact wire_packed. Qed.
Print Assumptions C11_wire_format_packed.
Example C11_wire_case : let b := [0; 11;0;0;0; 1;0;0;0; 5;0;0;0;0;0;0;0; 7;1;0;0;0;0;0;0] in
  unpack b = Some (ICancelV2 Ask (263 * 2 ^ 64 + 5)) /\ wire (ICancelV2 Ask (263 * 2 ^ 64 + 5)) = [(1%nat, 0); (4%nat, 11); (4%nat, 1); (16%nat, 263 * 2 ^ 64 + 5)] /\
  left_off (INewOrderV3 (mkOrderIx Bid 5 6 7 CancelProvide PostOnly 8 9 I64_MAX)) [255; 255; 255; 255; 255; 255; 255; 127].
Proof. cbv zeta. split; [vm_compute; reflexivity|]. split; [vm_compute; reflexivity|]. right. split; vm_compute; reflexivity. Qed.
