(** * PdaBytes.v — address derivation at byte level.

    Keys are arbitrary 32-byte strings and the hash is an arbitrary function, so nothing
    is assumed about it: the theorems say that two different derivations agree only if the
    hash function itself collides. *)
From Verif Require Import Base.

Definition bytes_of (s : string) : list N := map N_of_ascii (list_ascii_of_string s).

(** One derivation, with the seeds of lib.rs:21-50, 88-92, 130-134, 209-221 and of the
    associated-token and Metaplex crates. *)
Inductive derivation :=
| DvWrapped (u wtp : list N)
| DvAuthority (w : list N)
| DvBackpointer (w : list N)
| DvCanonical (u : list N)
| DvAta (wallet tokprog mint : list N)
| DvMetaplex (mpl mint : list N).

Definition seed_bytes (d : derivation) : list N :=
  match d with
  | DvWrapped u wtp => bytes_of "mint" ++ u ++ wtp
  | DvAuthority w => bytes_of "authority" ++ w
  | DvBackpointer w => bytes_of "backpointer" ++ w
  | DvCanonical u => bytes_of "canonical_pointer" ++ u
  | DvAta a t m => a ++ t ++ m
  | DvMetaplex p m => bytes_of "metadata" ++ p ++ m
  end.

(** What Pubkey::create_program_address hashes: seeds, bump, program id, marker. *)
Definition preimage (d : derivation) (bump : N) (prog : list N) : list N :=
  seed_bytes d ++ [bump] ++ prog ++ bytes_of "ProgramDerivedAddress".

Definition key32 (k : list N) : Prop := length k = 32%nat.
Definition derivation_wf (d : derivation) : Prop :=
  match d with
  | DvWrapped u p => key32 u /\ key32 p
  | DvAuthority w | DvBackpointer w | DvCanonical w => key32 w
  | DvAta a t m => key32 a /\ key32 t /\ key32 m
  | DvMetaplex p m => key32 p /\ key32 m
  end.

Lemma app_eq_len {A} (a b c d : list A) : length a = length c -> a ++ b = c ++ d -> a = c /\ b = d.
Proof.
  revert c; induction a as [|x a IH]; intros [|y c] Hl H; simpl in *; try discriminate; auto.
  inversion H; subst. destruct (IH c) as [-> ->]; auto.
Qed.

Lemma seed_len d : derivation_wf d ->
  length (seed_bytes d) =
    match d with DvWrapped _ _ => 68 | DvAuthority _ => 41 | DvBackpointer _ => 43 | DvCanonical _ => 49
               | DvAta _ _ _ => 96 | DvMetaplex _ _ => 72 end%nat.
Proof.
  destruct d; cbn [derivation_wf seed_bytes]; unfold key32; intro H;
    repeat rewrite app_length; cbn; lia.
Qed.

Lemma preimage_inj d bump prog d' bump' prog' :
  derivation_wf d -> derivation_wf d' -> key32 prog -> key32 prog' ->
  preimage d bump prog = preimage d' bump' prog' ->
  d = d' /\ bump = bump' /\ prog = prog'.
Proof.
  unfold preimage; intros Hd Hd' Hp Hp' H. unfold key32 in Hp, Hp'.
  assert (L : length (seed_bytes d) = length (seed_bytes d')).
  { apply (f_equal (@length N)) in H. repeat rewrite app_length in H. simpl in H. lia. }
  apply app_eq_len in H; [|exact L]. destruct H as [H1 H2].
  inversion H2 as [[Hb H3]]. apply app_eq_len in H3; [|congruence]. destruct H3 as [-> _].
  split; [|auto]. rewrite (seed_len d Hd), (seed_len d' Hd') in L.
  destruct d, d'; try discriminate; cbn [derivation_wf] in Hd, Hd'; unfold key32 in *; cbn [seed_bytes] in H1;
    repeat match goal with
    | H : _ /\ _ |- _ => destruct H
    end;
    repeat (apply app_eq_len in H1; [destruct H1 as [? H1] | cbn; congruence]); subst;
    first [reflexivity | congruence].
Qed.

(** ** Addresses under an arbitrary hash *)
Definition address (h : list N -> list N) (d : derivation) (bump : N) (prog : list N) : list N :=
  h (preimage d bump prog).
Definition collision (h : list N -> list N) : Prop := exists x y, x <> y /\ h x = h y.

Lemma list_N_dec (x y : list N) : {x = y} + {x <> y}.
Proof. apply list_eq_dec, N.eq_dec. Qed.

Lemma address_inj_or_collision h d bump prog d' bump' prog' :
  derivation_wf d -> derivation_wf d' -> key32 prog -> key32 prog' ->
  address h d bump prog = address h d' bump' prog' ->
  (d = d' /\ bump = bump' /\ prog = prog') \/ collision h.
Proof.
  intros Hd Hd' Hp Hp' H. destruct (list_N_dec (preimage d bump prog) (preimage d' bump' prog')) as [E|E].
  - left. now apply preimage_inj.
  - right. exists (preimage d bump prog), (preimage d' bump' prog'). auto.
Qed.

(** The escrow is derived in three steps (lib.rs:191-207); bumps are arbitrary. *)
Definition escrow_address (h : list N -> list N) (ata tw u utp wtp : list N) (b1 b2 b3 : N) : list N :=
  address h (DvAta (address h (DvAuthority (address h (DvWrapped u wtp) b1 tw)) b2 tw) utp u) b3 ata.

Lemma escrow_inj_or_collision h ata tw u utp wtp b1 b2 b3 tw' u' utp' wtp' b1' b2' b3' :
  (forall x, key32 (h x)) ->
  key32 ata -> key32 tw -> key32 tw' -> key32 u -> key32 utp -> key32 wtp -> key32 u' -> key32 utp' -> key32 wtp' ->
  escrow_address h ata tw u utp wtp b1 b2 b3 = escrow_address h ata tw' u' utp' wtp' b1' b2' b3' ->
  (u = u' /\ utp = utp' /\ wtp = wtp' /\ tw = tw') \/ collision h.
Proof.
  intros Hh Ka Kt Kt' Ku Kup Kwp Ku' Kup' Kwp' H.
  apply address_inj_or_collision in H; cbn; auto using Hh; [|repeat split; auto; apply Hh|repeat split; auto; apply Hh].
  destruct H as [(H & _ & _)|H]; [|auto]. inversion H as [[H1 H2 H3]].
  apply address_inj_or_collision in H1; cbn; auto; [|apply Hh|apply Hh].
  destruct H1 as [(H1 & _ & Ht)|H1]; [|auto]. inversion H1 as [[H4]].
  apply address_inj_or_collision in H4; cbn; auto.
  destruct H4 as [(H4 & _ & _)|H4]; [|auto]. inversion H4; subst. left; auto.
Qed.
