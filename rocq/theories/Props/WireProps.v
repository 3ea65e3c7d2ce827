(** Properties C01 to C06: the wire format. *)
From Coq Require Import ZifyBool ZifyNat ZifyN.
From Verif Require Import Model.Pdu Spec.Wire Proofs.WireP Proofs.WireP2.

(** A router key, an IPv6 prefix and an error report meet the hypotheses of the theorems below. *)
Definition ex_key : pdu := RouterKey 1 1 (repeat 7 20) 65536 [48; 1; 2; 3; 4].
Definition ex_v6 : pdu :=
  IPv6Prefix 1 1 48 64496 (mkPrefix (A6 (8193 * 2 ^ 112)) (Some 32)).
Definition ex_err : pdu := ErrorReport 0 4 [1; 2] [98; 97; 100].

Example ex_hyps : Forall wf_pdu [ex_key; ex_v6; ex_err] /\ Forall sendable [ex_key; ex_v6; ex_err].
Proof.
  split; repeat (constructor; [cbn; unfold wf_prefix, bytes_ok, u8, u16, u32; cbn;
    repeat split; try (repeat constructor; fail); try reflexivity; try discriminate; try (vm_compute; congruence)|]);
    constructor.
Qed.

(** C01 PDU encode/decode round trip. *)
Theorem C01_roundtrip : forall p rest,
  wf_pdu p -> sendable p -> bytes_ok rest ->
  exists b, encode p = Ok b /\ decode 64 (b ++ rest) = Ok (normal p, rest).
Proof. exact roundtrip. Qed.

Example C01_case : encode ex_v6 = Ok [1; 6; 0; 0; 0; 0; 0; 32; 1; 32; 48; 0; 32; 1; 0; 0; 0; 0; 0; 0; 0; 0; 0; 0; 0; 0; 0; 0; 0; 0; 251; 240] /\
  decode 64 ([1; 6; 0; 0; 0; 0; 0; 32; 1; 32; 48; 0; 32; 1; 0; 0; 0; 0; 0; 0; 0; 0; 0; 0; 0; 0; 0; 0; 0; 0; 251; 240] ++ [9; 9]) =
  Ok (ex_v6, [9; 9]) /\ normal ex_v6 = ex_v6.
Proof. repeat split; vm_compute; reflexivity. Qed.

Theorem C01_injective : forall p q b,
  wf_pdu p -> sendable p -> wf_pdu q -> sendable q ->
  encode p = Ok b -> encode q = Ok b -> normal p = normal q.
Proof. exact encode_injective. Qed.
(** An error report is sent with a zero byte behind its text (unless this is empty). *)
Example C01_case_injective : wf_pdu ex_err /\ sendable ex_err /\ encode ex_err <> encode ex_key /\
  normal ex_err = ErrorReport 0 4 [1; 2] [98; 97; 100; 0].
Proof.
  destruct ex_hyps as [H1 H2]. inversion H1 as [|? ? _ W1]; subst. inversion W1 as [|? ? _ W2]; subst. inversion W2; subst.
  inversion H2 as [|? ? _ S1]; subst. inversion S1 as [|? ? _ S2]; subst. inversion S2; subst.
  split; [assumption|]. split; [assumption|]. split; [vm_compute; discriminate|reflexivity].
Qed.

(** C02 Decoding never crashes (64-bit int). *)
Theorem C02_no_crash : forall b, bytes_ok b -> decode 64 b <> Panic.
Proof. exact decode_no_panic. Qed.

Example C02_case : decode 64 ([1; 10; 0; 0; 0; 0; 0; 16] ++ [255; 255; 255; 255; 0; 0; 0; 0]) = Err EPayload /\
  decode 64 [] = Err EIO /\ decode 64 [1; 4; 0; 0; 255; 255; 255; 255] = Err ELength.
Proof. repeat split; vm_compute; reflexivity. Qed.

(** With a 32-bit int it can: the claim is specific to 64-bit platforms. *)
Theorem C02_no_crash_32bit_refuted : exists b, bytes_ok b /\ decode 32 b = Panic.
Proof.
  exists ([1; 10; 0; 0; 0; 0; 0; 16] ++ [255; 255; 255; 255; 0; 0; 0; 0]).
  split; [apply bytes_okb_ok; reflexivity | vm_compute; reflexivity].
Qed.

(** C03 Stream framing. *)
Theorem C03_stream : forall l rest,
  Forall wf_pdu l -> Forall sendable l -> bytes_ok rest ->
  exists b, encode_all l = Ok b /\
            decode_n 64 (length l) (b ++ rest) = Ok (map normal l, rest).
Proof. exact stream_roundtrip. Qed.
Example C03_case : match encode_all [ex_key; ex_v6; ex_err] with
  | Ok b => decode_n 64 3 (b ++ [9; 9]) = Ok ([ex_key; ex_v6; ErrorReport 0 4 [1; 2] [98; 97; 100; 0]], [9; 9])
            /\ nlen b = 37 + 32 + 22
  | _ => False end.
Proof. vm_compute. split; reflexivity. Qed.

Theorem C03_consumes_announced : forall b p rest, bytes_ok b ->
  decode 64 b = Ok (p, rest) -> b = firstn (N.to_nat (w_len b)) b ++ rest
    /\ nlen (firstn (N.to_nat (w_len b)) b) = w_len b.
Proof. exact decode_consumes. Qed.

Example C03_case_consumes : let b := [0; 10; 0; 3; 0; 0; 0; 18; 0; 0; 0; 0; 0; 0; 0; 2; 79; 75; 1; 2; 0; 0; 0; 0; 0; 8] in
  decode 64 b = Ok (ErrorReport 0 3 [] [79; 75], [1; 2; 0; 0; 0; 0; 0; 8]) /\ w_len b = 18.
Proof. split; vm_compute; reflexivity. Qed.

Theorem C03_prefix_rejected : forall p b k,
  wf_pdu p -> sendable p -> encode p = Ok b ->
  (k < length b)%nat -> forall r, decode 64 (firstn k b) <> Ok r.
Proof. exact prefix_no_decode. Qed.

Example C03_case_prefix : match encode ex_err with
  | Ok b => nlen b = 22 /\ forallb (fun k => match decode 64 (firstn k b) with Ok _ => false | _ => true end) (seq 0 22) = true
  | _ => False end.
Proof. split; vm_compute; reflexivity. Qed.

(** C04 Announced length is the real length. *)
Theorem C04_length_field : forall p b,
  wf_pdu p -> encode p = Ok b -> nlen b < 4294967296 ->
  (b = [] /\ exists v f ski a spki, p = RouterKey v f ski a spki /\ nlen ski <> 20)
  \/ (8 <= nlen b /\ w_len b = nlen b).
Proof. exact length_field. Qed.

Example C04_case : match encode ex_key with Ok b => w_len b = 37 /\ nlen b = 37 | _ => False end /\
  encode (RouterKey 1 1 [7] 65536 [48]) = Ok [].
Proof. split; [split|]; vm_compute; reflexivity. Qed.

(** C05 Only well-formed PDUs are accepted. *)
Theorem C05_decode_iff : forall b p rest, bytes_ok b ->
  decode 64 b = Ok (p, rest) <->
  frame_ok b /\ w_pdu b p /\ rest = skipn (N.to_nat (w_len b)) b.
Proof. exact decode_iff. Qed.

Example C05_case : let b := [1; 4; 0; 0; 0; 0; 0; 20; 1; 8; 24; 0; 10; 0; 0; 0; 0; 0; 0; 5; 77] in
  frame_ok b /\ decode 64 b = Ok (IPv4Prefix 1 1 24 5 (mkPrefix (A4 167772160) (Some 8)), [77]).
Proof.
  cbv zeta. split; [|vm_compute; reflexivity].
  now apply (C05_decode_iff _ (IPv4Prefix 1 1 24 5 (mkPrefix (A4 167772160) (Some 8))) [77]);
    [apply bytes_okb_ok; reflexivity|vm_compute; reflexivity].
Qed.
Example C05_case_rejected : decode 64 [1; 2; 0; 0; 0; 0; 0] = Err EIO
  /\ decode 64 [1; 5; 0; 0; 0; 0; 0; 8] = Err EType
  /\ decode 64 [1; 2; 0; 0; 0; 0; 0; 7] = Err ELength
  /\ decode 64 [1; 2; 0; 0; 0; 0; 0; 9; 0] = Err EPayload.
Proof. repeat split. Qed.

(** C06 Decoded PDUs re-serialise to what was received. *)
Theorem C06_reencode : forall b p rest, bytes_ok b -> decode 64 b = Ok (p, rest) ->
  (encode p = Ok (firstn (N.to_nat (w_len b)) b) <-> canonical b).
Proof. exact reencode_iff. Qed.
Example C06_case : exists p rest, decode 64 [1; 2; 0; 5; 0; 0; 0; 8; 77] = Ok (p, rest)
  /\ encode p <> Ok [1; 2; 0; 5; 0; 0; 0; 8] /\ ~ canonical [1; 2; 0; 5; 0; 0; 0; 8; 77].
Proof.
  exists (ResetQuery 1), [77]. repeat split; try (vm_compute; congruence).
  intros (H & _). specialize (H eq_refl). discriminate.
Qed.

Print Assumptions C01_roundtrip.
Print Assumptions C01_injective.
Print Assumptions C02_no_crash.
Print Assumptions C02_no_crash_32bit_refuted.
Print Assumptions C03_stream.
Print Assumptions C03_consumes_announced.
Print Assumptions C03_prefix_rejected.
Print Assumptions C04_length_field.
Print Assumptions C05_decode_iff.
Print Assumptions C06_reencode.
