(** * DerivedProofs.v — the public derivation functions. *)
From Verif Require Import Base Codec State Pda TokenProg Cpi Meta Processor Tac PdaProofs Spec.

Lemma derived_pda e kd args k :
  derived e kd args k ->
  match kd, args with
  | KWrappedMint, [u; wtp; prog] => k = wrapped_mint_for e u wtp prog
  | KAuthority, [w; prog] => k = authority_for e w prog
  | KBackpointer, [w; prog] => k = backpointer_for e w prog
  | KCanonicalPointer, [u; prog] => k = canonical_pointer_for e u prog
  | KEscrow, [u; utp; wtp; prog] => k = escrow_for e u utp wtp prog
  | KMetaplex, [m] => k = metaplex_of e m
  | _, _ => False
  end.
Proof.
  intro H; destruct H as [u wtp prog k H|w prog k H|w prog k H|u prog k H|u utp wtp prog k H|m k b H].
  1,2,3,4: (unfold get_wrapped_mint_address_for_program, get_wrapped_mint_authority_for_program,
      get_wrapped_mint_backpointer_address_for_program, get_canonical_pointer_address_for_program in H;
    apply bind_ok in H; destruct H as [kb [H E]]; inversion E; subst; apply find_pda_fst in H; exact H).
  - unfold get_escrow_address_for_program, get_wrapped_mint_address_for_program, get_wrapped_mint_authority_for_program in H.
    apply bind_ok in H. destruct H as [w [H1 H]]. apply bind_ok in H1. destruct H1 as [kb [H1 E1]]. inversion E1; subst w.
    apply bind_ok in H. destruct H as [a [H2 H]]. apply bind_ok in H2. destruct H2 as [kb2 [H2 E2]]. inversion E2; subst a.
    apply find_pda_fst in H1. apply find_pda_fst in H2. apply get_ata_ok in H. rewrite H, H2, H1. reflexivity.
  - apply metaplex_find_pda_ok in H. exact H.
Qed.
Ltac pda_clash := let X := fresh in intro X; exfalso; apply pda_inj in X; let Y := fresh in destruct X as [Y _]; discriminate Y.
Lemma derived_inj_l e e' kd args kd' args' k : derived e kd args k -> derived e' kd' args' k -> kd = kd' /\ args = args'.
Proof.
  intros H H'. apply derived_pda in H. apply derived_pda in H'.
  destruct kd, kd'; repeat (match goal with H : match ?a with [] => _ | _ :: _ => _ end |- _ => destruct a; try contradiction end);
    subst k; revert H'; try pda_clash; intro X; split; try reflexivity.
  - apply wrapped_mint_for_inj in X. destruct X as (-> & -> & ->). reflexivity.
  - apply authority_for_inj in X. destruct X as (-> & ->). reflexivity.
  - apply backpointer_for_inj in X. destruct X as (-> & ->). reflexivity.
  - apply canonical_pointer_for_inj in X. destruct X as (-> & ->). reflexivity.
  - apply escrow_for_inj in X. destruct X as (-> & -> & -> & ->). reflexivity.
  - unfold metaplex_of in X. apply pda_inj in X. destruct X as [X _]. unfold metaplex_seeds in X. apply app_inv_head in X. inversion X. reflexivity.
Qed.

Lemma derived_det : forall e e' kind args k k',
  same_curve e e' -> derived e kind args k -> derived e' kind args k' -> k = k'.
Proof.
  intros e e' kind args k k' C H H'. apply derived_pda in H. apply derived_pda in H'.
  destruct kind; repeat (match goal with H : match ?a with [] => _ | _ :: _ => _ end |- _ => destruct a; try contradiction end); subst;
    try (apply pda_curve, C).
  unfold escrow_for, authority_for, wrapped_mint_for, ata_of.
  rewrite (pda_curve e e' (wrapped_mint_seeds p p1) p2 C), (pda_curve e e' (wrapped_mint_authority_seeds _) p2 C). apply pda_curve, C.
Qed.
Lemma signer_seeds_l : forall e u wtp w prog kb,
  (get_wrapped_mint_address_with_seed_for_program e u wtp prog = Ok kb ->
     create_program_address e (wrapped_mint_signer_seeds u wtp (snd kb)) prog = Ok (fst kb)) /\
  (get_wrapped_mint_authority_with_seed_for_program e w prog = Ok kb ->
     create_program_address e (wrapped_mint_authority_signer_seeds w (snd kb)) prog = Ok (fst kb)) /\
  (get_wrapped_mint_backpointer_address_with_seed_for_program e w prog = Ok kb ->
     create_program_address e (backpointer_signer_seeds w (snd kb)) prog = Ok (fst kb)) /\
  (get_canonical_pointer_address_with_seed_for_program e u prog = Ok kb ->
     create_program_address e (canonical_pointer_signer_seeds u (snd kb)) prog = Ok (fst kb)).
Proof.
  intros e u wtp w prog [k b].
  repeat split; intro H; apply find_pda_create in H; cbn [fst snd]; rewrite <- H; f_equal;
    unfold wrapped_mint_signer_seeds, wrapped_mint_seeds, wrapped_mint_authority_signer_seeds, wrapped_mint_authority_seeds,
      backpointer_signer_seeds, backpointer_seeds, canonical_pointer_signer_seeds, canonical_pointer_seeds; rewrite <- app_assoc; reflexivity.
Qed.
