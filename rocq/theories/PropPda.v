(** * PropPda.v — C04: derived addresses never collide. *)
From Verif Require Import Base Codec State Pda TokenProg Cpi Meta Processor Tac PdaProofs PdaBytes Spec Demo DerivedProofs.

(** C04 (symbolic hashing): an address determines its kind and all arguments of its derivation,
    for every deployment of the program and every environment. *)
Theorem C04_no_collisions : forall e e' kind args kind' args' k,
  derived e kind args k -> derived e' kind' args' k -> kind = kind' /\ args = args'.
Proof. exact derived_inj_l. Qed.
Print Assumptions C04_no_collisions.

(** Derivation depends on nothing but its arguments: same curve, same answer. *)
Theorem C04_deterministic : forall e e' kind args k k',
  same_curve e e' -> derived e kind args k -> derived e' kind args k' -> k = k'.
Proof. exact derived_det. Qed.
Print Assumptions C04_deterministic.

(** The seed and bump returned with an address are the ones that sign for it. *)
Theorem C04_signer_seeds : forall e u wtp w prog kb,
  (get_wrapped_mint_address_with_seed_for_program e u wtp prog = Ok kb ->
     create_program_address e (wrapped_mint_signer_seeds u wtp (snd kb)) prog = Ok (fst kb)) /\
  (get_wrapped_mint_authority_with_seed_for_program e w prog = Ok kb ->
     create_program_address e (wrapped_mint_authority_signer_seeds w (snd kb)) prog = Ok (fst kb)) /\
  (get_wrapped_mint_backpointer_address_with_seed_for_program e w prog = Ok kb ->
     create_program_address e (backpointer_signer_seeds w (snd kb)) prog = Ok (fst kb)) /\
  (get_canonical_pointer_address_with_seed_for_program e u prog = Ok kb ->
     create_program_address e (canonical_pointer_signer_seeds u (snd kb)) prog = Ok (fst kb)).
Proof. exact signer_seeds_l. Qed.
Print Assumptions C04_signer_seeds.

(** C04 (bytes): over arbitrary 32-byte keys, two derivations of different kind or with different
    arguments never hash the same preimage, so equal addresses exhibit a hash collision. *)
Theorem C04_preimages_distinct : forall d bump prog d' bump' prog',
  derivation_wf d -> derivation_wf d' -> key32 prog -> key32 prog' ->
  preimage d bump prog = preimage d' bump' prog' -> d = d' /\ bump = bump' /\ prog = prog'.
Proof. exact preimage_inj. Qed.
Print Assumptions C04_preimages_distinct.
Theorem C04_bytes_or_hash_collision : forall h d bump prog d' bump' prog',
  derivation_wf d -> derivation_wf d' -> key32 prog -> key32 prog' ->
  address h d bump prog = address h d' bump' prog' -> (d = d' /\ bump = bump' /\ prog = prog') \/ collision h.
Proof. exact address_inj_or_collision. Qed.
Print Assumptions C04_bytes_or_hash_collision.
Theorem C04_escrow_bytes : forall h ata tw u utp wtp b1 b2 b3 tw' u' utp' wtp' b1' b2' b3',
  (forall x, key32 (h x)) ->
  key32 ata -> key32 tw -> key32 tw' -> key32 u -> key32 utp -> key32 wtp -> key32 u' -> key32 utp' -> key32 wtp' ->
  escrow_address h ata tw u utp wtp b1 b2 b3 = escrow_address h ata tw' u' utp' wtp' b1' b2' b3' ->
  (u = u' /\ utp = utp' /\ wtp = wtp' /\ tw = tw') \/ collision h.
Proof. exact escrow_inj_or_collision. Qed.
Print Assumptions C04_escrow_bytes.

(** The symbolic seed lists of the model and the byte strings above are the same thing: write every key
    as its 32 bytes. *)
Definition atom_bytes (name : pubkey -> list N) (a : atom) : list N := match a with inl b => [b] | inr k => name k end.
Definition flatten (name : pubkey -> list N) (s : list atom) : list N := flat_map (atom_bytes name) s.
Theorem C04_same_seeds : forall name u wtp w a m p,
  flatten name (wrapped_mint_seeds u wtp) = seed_bytes (DvWrapped (name u) (name wtp)) /\
  flatten name (wrapped_mint_authority_seeds w) = seed_bytes (DvAuthority (name w)) /\
  flatten name (backpointer_seeds w) = seed_bytes (DvBackpointer (name w)) /\
  flatten name (canonical_pointer_seeds u) = seed_bytes (DvCanonical (name u)) /\
  flatten name (ata_seeds a m p) = seed_bytes (DvAta (name a) (name p) (name m)) /\
  flatten name (metaplex_seeds m) = seed_bytes (DvMetaplex (name mpl_id) (name m)).
Proof. intros. repeat split; cbn; rewrite ?app_nil_r; reflexivity. Qed.
Print Assumptions C04_same_seeds.
(** ... and the bump and program id are appended on both sides. *)
Theorem C04_same_preimage : forall name e s prog k b,
  find_program_address e s prog = Ok (k, b) ->
  exists seeds, k = PkDerived seeds prog /\ flatten name seeds = flatten name s ++ [b].
Proof.
  intros name e s prog k b H. apply find_pda_ok in H. destruct H as (-> & -> & _). unfold pda.
  eexists. split; [reflexivity|]. unfold flatten. rewrite flat_map_app. reflexivity.
Qed.
Print Assumptions C04_same_preimage.
(** The public derivation functions return the addresses used in the other statements. *)
Theorem C04_addresses : forall e u utp wtp w m k,
  (derived e KWrappedMint [u; wtp; tw_id] k -> k = wrapped_mint_of e u wtp) /\
  (derived e KAuthority [w; tw_id] k -> k = authority_of e w) /\
  (derived e KBackpointer [w; tw_id] k -> k = backpointer_of e w) /\
  (derived e KCanonicalPointer [u; tw_id] k -> k = canonical_pointer_of e u) /\
  (derived e KEscrow [u; utp; wtp; tw_id] k -> k = escrow_of e u utp wtp) /\
  (derived e KMetaplex [m] k -> k = metaplex_of e m).
Proof. intros. repeat split; intro H; apply derived_pda in H; exact H. Qed.
Print Assumptions C04_addresses.

Example C04_nonvacuous :
  derived demo_env KWrappedMint [d_u; t22_id; tw_id] (d_w t22_id) /\
  derived demo_env KEscrow [d_u; spl_token_id; t22_id; tw_id] (d_esc spl_token_id t22_id) /\
  derived demo_env KCanonicalPointer [d_u; tw_id] (canonical_pointer_of demo_env d_u) /\
  derivation_wf (DvWrapped (repeat 1 32) (repeat 2 32)).
Proof. repeat split; constructor; vm_compute; reflexivity. Qed.
