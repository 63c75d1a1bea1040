(** * PropCodec.v — C01, C02, C03: wire format and error codes. *)
From Verif Require Import Base Codec State Pda TokenProg Cpi Meta Processor CodecProofs Spec WireProofs.

(** C01: every expressible instruction survives encoding and decoding, and its encoding is the
    documented byte layout. *)
Theorem C01_roundtrip : forall i, expressible i -> wire i (pack i) /\ bytes (pack i) /\ unpack (pack i) = Ok i.
Proof. exact (fun i H => conj (wire_pack i H) (conj (pack_bytes i H) (unpack_pack i H))). Qed.
Print Assumptions C01_roundtrip.
Example C01_nonvacuous : expressible (Wrap 18446744073709551615) /\ expressible (SetCanonicalPointer (repeat 255 32)).
Proof. split; [reflexivity|]. split; [reflexivity|]. repeat constructor. Qed.

(** C02: a byte string is accepted iff it is the encoding of an instruction, and then it decodes
    to that one; everything else is refused with InvalidInstructionData (no panic). *)
Theorem C02_strict : forall bs, bytes bs ->
  (forall i, unpack bs = Ok i <-> wire i bs) /\
  ((exists i, unpack bs = Ok i /\ expressible i /\ pack i = bs) \/ unpack bs = Err EInvalidInstructionData).
Proof.
  exact (fun bs H => conj (fun i => conj (unpack_wire i bs H) (fun W => proj1 (wire_unpack i bs W)))
    (match unpack bs as r return unpack bs = r -> (exists i, r = Ok i /\ expressible i /\ pack i = bs) \/ r = Err EInvalidInstructionData with
     | Ok i => fun E => or_introl (ex_intro _ i (conj eq_refl (conj (proj2 (unpack_ok_pack bs i H E)) (proj1 (unpack_ok_pack bs i H E)))))
     | Err x => fun E => or_intror (f_equal Err (unpack_err bs x E))
     end eq_refl)).
Qed.
Print Assumptions C02_strict.
(** No two byte strings mean the same instruction. *)
Theorem C02_canonical : forall b1 b2 i, bytes b1 -> bytes b2 -> unpack b1 = Ok i -> unpack b2 = Ok i -> b1 = b2.
Proof. exact (fun b1 b2 i H1 H2 E1 E2 => eq_trans (eq_sym (proj1 (unpack_ok_pack _ _ H1 E1))) (proj1 (unpack_ok_pack _ _ H2 E2))). Qed.
Print Assumptions C02_canonical.
(** The encoding is unambiguous: no byte string encodes two instructions. *)
Theorem C02_unambiguous : forall i j bs, wire i bs -> wire j bs -> i = j.
Proof.
  intros i j bs Hi Hj. apply wire_unpack in Hi. apply wire_unpack in Hj.
  destruct Hi as [Hi _], Hj as [Hj _]. rewrite Hi in Hj. injection Hj. auto.
Qed.
Print Assumptions C02_unambiguous.
Example C02_accepts : unpack [1; 44; 1; 0; 0; 0; 0; 0; 0] = Ok (Wrap 300).
Proof. reflexivity. Qed.
Example C02_rejects : unpack [1; 44; 1; 0; 0; 0; 0; 0] = Err EInvalidInstructionData /\ unpack [0; 2] = Err EInvalidInstructionData /\
  unpack [3; 0] = Err EInvalidInstructionData /\ unpack [7] = Err EInvalidInstructionData /\ unpack [] = Err EInvalidInstructionData.
Proof. repeat split. Qed.

(** C03: custom code [v] means the [v]-th documented error; all other codes are refused. *)
Theorem C03_codes : forall v e,
  (tw_error_of_code v = Ok e <-> nth_error documented_errors (N.to_nat v) = Some e) /\
  (tw_error_of_code v = Ok e <-> ETw e = ECustom v).
Proof.
  intros v e. split; [apply error_table|]. split; intro H.
  - apply tw_error_of_code_ok in H. unfold ETw. now rewrite H.
  - unfold ETw in H. injection H as <-. apply tw_error_of_code_code.
Qed.
Print Assumptions C03_codes.
Theorem C03_rejects : forall v, (16 <= v <-> tw_error_of_code v = Err EInvalidArgument).
Proof.
  intro v. split; [apply tw_error_of_code_big|]. intro H. destruct (N.lt_ge_cases v 16) as [L|L]; [|exact L]. exfalso.
  destruct v as [|p]; [discriminate|]. do 4 (destruct p as [p|p|]; try (exfalso; lia); try discriminate).
Qed.
Print Assumptions C03_rejects.
Theorem C03_distinct : forall e e', ETw e = ETw e' -> e = e'.
Proof. intros e e' H. destruct e, e'; try reflexivity; discriminate H. Qed.
Print Assumptions C03_distinct.
