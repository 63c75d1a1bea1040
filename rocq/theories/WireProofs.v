(** * WireProofs.v — the codec implements the wire format. *)
From Verif Require Import Base Codec State Pda TokenProg Cpi Meta Processor Tac CodecProofs Spec.

Lemma le_eq bs : little_endian bs = from_le bs.
Proof. induction bs as [|b r IH]; cbn; [reflexivity|now rewrite IH]. Qed.
Lemma wire_pack i : expressible i -> wire i (pack i).
Proof.
  destruct i as [b|a|a| | | |k]; cbn [expressible pack]; intro H; try constructor; auto using length_to_le, to_le_bytes.
  - apply to_le_bytes.
  - rewrite le_eq. apply from_to_le. exact H.
  - apply to_le_bytes.
  - rewrite le_eq. apply from_to_le. exact H.
  - tauto.
  - tauto.
Qed.
Lemma wire_unpack i bs : wire i bs -> unpack bs = Ok i /\ expressible i /\ bytes bs.
Proof.
  intro H; destruct H as [b|a bs Hb Hl He|a bs Hb Hl He| | | |bs Hb Hl].
  - destruct b; repeat split; repeat constructor.
  - assert (a < 2 ^ 64). { rewrite <- He, le_eq. apply from_le_bound in Hb. rewrite Hl in Hb. exact Hb. }
    split; [|split; [exact H|constructor; [reflexivity|exact Hb]]].
    rewrite <- He, le_eq. unfold unpack. cbn [N.eqb Pos.eqb andb]. unfold try_into_array. rewrite Hl. reflexivity.
  - assert (a < 2 ^ 64). { rewrite <- He, le_eq. apply from_le_bound in Hb. rewrite Hl in Hb. exact Hb. }
    split; [|split; [exact H|constructor; [reflexivity|exact Hb]]].
    rewrite <- He, le_eq. unfold unpack. cbn [N.eqb Pos.eqb andb]. unfold try_into_array. rewrite Hl. reflexivity.
  - repeat split; repeat constructor.
  - repeat split; repeat constructor.
  - repeat split; repeat constructor.
  - split; [|split; [split; assumption|constructor; [reflexivity|exact Hb]]].
    unfold unpack. cbn [N.eqb Pos.eqb andb]. unfold try_into_array. rewrite Hl. reflexivity.
Qed.
Lemma unpack_wire i bs : bytes bs -> unpack bs = Ok i -> wire i bs.
Proof. intros Hb H. apply unpack_ok_pack in H; [|exact Hb]. destruct H as [<- H]. apply wire_pack. exact H. Qed.

Lemma error_table v e : tw_error_of_code v = Ok e <-> nth_error documented_errors (N.to_nat v) = Some e.
Proof.
  split; intro H.
  - apply tw_error_of_code_ok in H. subst v. destruct e; reflexivity.
  - assert (L : (N.to_nat v < length documented_errors)%nat) by (apply nth_error_Some; rewrite H; discriminate).
    cbn [documented_errors length] in L.
    assert (V : v < 16) by lia.
    assert (E : v = tw_error_code e).
    { clear L. destruct v as [|p]; [inversion H; reflexivity|].
      do 4 (destruct p as [p|p|]; try (exfalso; lia); try (inversion H; reflexivity)). }
    subst v. apply tw_error_of_code_code.
Qed.
