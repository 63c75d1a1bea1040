(** * CodecProofs.v — wire format lemmas. *)
From Verif Require Import Base Codec Tac.

Lemma length_to_le n x : length (to_le n x) = n.
Proof. revert x; induction n as [|n IH]; intro x; cbn [to_le length]; [reflexivity|now rewrite IH]. Qed.

Lemma to_le_bytes n x : Forall (fun b => b < 256) (to_le n x).
Proof.
  revert x; induction n as [|n IH]; intro x; cbn [to_le]; constructor; auto.
  apply N.mod_lt; discriminate.
Qed.

Lemma from_to_le n x : x < 256 ^ N.of_nat n -> from_le (to_le n x) = x.
Proof.
  revert x; induction n as [|n IH]; intros x Hx; cbn [to_le from_le].
  - simpl in Hx; lia.
  - rewrite IH.
    + pose proof (N.div_mod x 256). lia.
    + apply N.div_lt_upper_bound; [discriminate|].
      rewrite Nat2N.inj_succ, N.pow_succ_r in Hx by lia. exact Hx.
Qed.

Lemma to_from_le l : Forall (fun b => b < 256) l -> to_le (length l) (from_le l) = l.
Proof.
  induction l as [|b r IH]; intro H; [reflexivity|].
  inversion H as [|? ? Hb Hr]; subst. cbn [length to_le from_le].
  f_equal.
  - rewrite N.mul_comm, N.mod_add by discriminate. now apply N.mod_small.
  - rewrite N.mul_comm, N.div_add by discriminate. rewrite (N.div_small b) by exact Hb.
    rewrite N.add_0_l. auto.
Qed.

Lemma from_le_bound l : Forall (fun b => b < 256) l -> from_le l < 256 ^ N.of_nat (length l).
Proof.
  induction l as [|b r IH]; intro H; cbn [from_le length]; [simpl; lia|].
  inversion H as [|? ? Hb Hr]; subst. specialize (IH Hr).
  rewrite Nat2N.inj_succ, N.pow_succ_r by lia. lia.
Qed.

Lemma nat_eqb_len {A} (l : list A) n : length l = n -> Nat.eqb (length l) n = true.
Proof. intro H; apply Nat.eqb_eq, H. Qed.

(** Well-formed instructions: amounts are u64, program ids are 32 bytes. *)
Definition instr_wf (i : tw_instr (list N)) : Prop :=
  match i with
  | Wrap a | Unwrap a => a < 2 ^ 64
  | SetCanonicalPointer k => length k = 32%nat /\ Forall (fun b => b < 256) k
  | _ => True
  end.

Lemma unpack_pack i : instr_wf i -> unpack (pack i) = Ok i.
Proof.
  destruct i as [b|a|a| | | |k]; cbn [instr_wf pack unpack]; intro H.
  - destruct b; reflexivity.
  - assert (E : try_into_array 8 (to_le 8 a) = Ok (to_le 8 a)).
    { unfold try_into_array; rewrite length_to_le; reflexivity. }
    rewrite E, length_to_le. cbn -[to_le from_le]. rewrite (from_to_le 8) by exact H. reflexivity.
  - assert (E : try_into_array 8 (to_le 8 a) = Ok (to_le 8 a)).
    { unfold try_into_array; rewrite length_to_le; reflexivity. }
    rewrite E, length_to_le. cbn -[to_le from_le]. rewrite (from_to_le 8) by exact H. reflexivity.
  - reflexivity.
  - reflexivity.
  - reflexivity.
  - destruct H as [Hl Hb]. unfold try_into_array. rewrite Hl. reflexivity.
Qed.

Lemma pack_bytes i : instr_wf i -> Forall (fun b => b < 256) (pack i).
Proof.
  destruct i as [b|a|a| | | |k]; cbn [instr_wf pack]; intro H;
    try (constructor; [lia|apply to_le_bytes]); try (constructor; [lia|constructor]).
  - destruct b; lia.
  - constructor.
  - constructor; [lia|tauto].
Qed.

Lemma unpack_ok_pack bs i :
  Forall (fun b => b < 256) bs -> unpack bs = Ok i -> pack i = bs /\ instr_wf i.
Proof.
  intros Hb H. destruct bs as [|tag rest]; [discriminate|]. inversion Hb as [|? ? Ht Hr]; subst.
  unfold unpack in H.
  repeat match type of H with
  | (if ?t && ?c then _ else _) = _ =>
      let E := fresh "E" in destruct (t && c) eqn:E;
      [apply andb_true_iff in E; destruct E as [E1 E2]; apply N.eqb_eq in E1; apply Nat.eqb_eq in E2; subst tag | clear E]
  end; try discriminate.
  - destruct rest as [|b [|]]; try discriminate.
    destruct (b =? 0) eqn:E0; [apply N.eqb_eq in E0; subst; inversion H; subst; split; simpl; auto|].
    destruct (b =? 1) eqn:E1'; [apply N.eqb_eq in E1'; subst; inversion H; subst; split; simpl; auto|discriminate].
  - unfold try_into_array in H; rewrite E2 in H; cbn in H. inversion H; subst. cbn [pack instr_wf].
    rewrite <- E2. split; [now rewrite to_from_le|]. apply from_le_bound in Hr. rewrite E2 in Hr. exact Hr.
  - unfold try_into_array in H; rewrite E2 in H; cbn in H. inversion H; subst. cbn [pack instr_wf].
    rewrite <- E2. split; [now rewrite to_from_le|]. apply from_le_bound in Hr. rewrite E2 in Hr. exact Hr.
  - destruct rest; [|discriminate]. inversion H; subst; split; simpl; auto.
  - destruct rest; [|discriminate]. inversion H; subst; split; simpl; auto.
  - destruct rest; [|discriminate]. inversion H; subst; split; simpl; auto.
  - unfold try_into_array in H; rewrite E2 in H; cbn in H. inversion H; subst. cbn [pack instr_wf]. auto.
Qed.

Lemma unpack_err bs x : unpack bs = Err x -> x = EInvalidInstructionData.
Proof.
  intro H. destruct bs as [|tag rest]; [inversion H; auto|]. unfold unpack in H.
  repeat match type of H with
  | (if ?t && ?c then _ else _) = _ =>
      let E := fresh "E" in destruct (t && c) eqn:E;
      [apply andb_true_iff in E; destruct E as [E1 E2]; apply Nat.eqb_eq in E2 | clear E]
  end; try (inversion H; auto; fail).
  - destruct rest as [|b r]; [discriminate|]. destruct (b =? 0); [discriminate|]. destruct (b =? 1); [discriminate|].
    inversion H; auto.
  - unfold try_into_array in H; rewrite E2 in H; discriminate.
  - unfold try_into_array in H; rewrite E2 in H; discriminate.
  - unfold try_into_array in H; rewrite E2 in H; discriminate.
Qed.

(** Error codes. *)
Lemma tw_error_code_range e : tw_error_code e < 16.
Proof. destruct e; cbn; lia. Qed.
Lemma tw_error_of_code_code e : tw_error_of_code (tw_error_code e) = Ok e.
Proof. destruct e; reflexivity. Qed.
Lemma tw_error_of_code_ok v e : tw_error_of_code v = Ok e -> tw_error_code e = v.
Proof.
  unfold tw_error_of_code; intro H. apply of_option_ok in H. apply find_some in H.
  destruct H as [_ H]. apply N.eqb_eq, H.
Qed.
Lemma tw_error_of_code_big v : 16 <= v -> tw_error_of_code v = Err EInvalidArgument.
Proof.
  intro Hv. destruct (tw_error_of_code v) as [e|e] eqn:E.
  - apply tw_error_of_code_ok in E. pose proof (tw_error_code_range e). lia.
  - unfold tw_error_of_code in E. destruct (find _ _); simpl in E; congruence.
Qed.
