(** * PdaProofs.v — derived addresses: agreement, injectivity, disjointness. *)
From Verif Require Import Base State Pda Tac.

(** ** Agreement of the searching functions with the total ones *)
Lemma search_bump_ok e s p n b :
  search_bump e s p n = b -> b <> 0 ->
  e_off_curve e (s ++ [inl b]) p = true /\ b <= N.of_nat n /\
  (forall c, b < c -> c <= N.of_nat n -> e_off_curve e (s ++ [inl c]) p = false).
Proof.
  revert b; induction n as [|n IH]; intros b H Hb; cbn [search_bump] in H; [congruence|].
  destruct (e_off_curve e (s ++ [inl (N.of_nat (S n))]) p) eqn:E.
  - subst b. split; [exact E|]. split; [lia|]. intros c Hc1 Hc2. lia.
  - apply IH in H; [|exact Hb]. destruct H as (H1 & H2 & H3). split; [exact H1|]. split; [lia|].
    intros c Hc1 Hc2. destruct (N.eq_dec c (N.of_nat (S n))) as [->|Hne]; [exact E|].
    apply H3; lia.
Qed.

Lemma find_pda_ok e s p k b :
  find_program_address e s p = Ok (k, b) ->
  k = pda e s p /\ b = find_bump e s p /\ b <> 0 /\ e_off_curve e (s ++ [inl b]) p = true.
Proof.
  unfold find_program_address, pda. destruct (find_bump e s p =? 0) eqn:E; [discriminate|].
  intro H; inversion H; subst. apply N.eqb_neq in E.
  repeat split; auto. eapply search_bump_ok; [reflexivity|exact E].
Qed.
Lemma find_pda_fst e s p kb :
  find_program_address e s p = Ok kb -> fst kb = pda e s p.
Proof. destruct kb as [k b]; intro H; apply find_pda_ok in H; simpl; tauto. Qed.

(** The seeds of a found address sign for it. *)
Lemma find_pda_create e s p k b :
  find_program_address e s p = Ok (k, b) -> create_program_address e (s ++ [inl b]) p = Ok k.
Proof.
  intro H. apply find_pda_ok in H. destruct H as (-> & Hb & _ & Hc).
  unfold create_program_address, pda. rewrite Hc, Hb. reflexivity.
Qed.

Definition findable (e : env) (s : list atom) (p : pubkey) : Prop := find_bump e s p <> 0.
Lemma find_pda_findable e s p :
  findable e s p -> find_program_address e s p = Ok (pda e s p, find_bump e s p).
Proof.
  unfold findable, find_program_address, pda; intro H. apply N.eqb_neq in H. rewrite H. reflexivity.
Qed.

#[global] Opaque find_bump.

(** Addresses depend on the environment only through curve membership. *)
Definition same_curve (e e' : env) : Prop :=
  forall s p, e_off_curve e s p = e_off_curve e' s p.
Lemma same_curve_refl e : same_curve e e.
Proof. intros s p; reflexivity. Qed.
Lemma same_curve_sym e e' : same_curve e e' -> same_curve e' e.
Proof. intros H s p; symmetry; apply H. Qed.
Lemma same_curve_trans e e' e'' : same_curve e e' -> same_curve e' e'' -> same_curve e e''.
Proof. intros H1 H2 s p; rewrite H1; apply H2. Qed.
Lemma search_bump_curve e e' s p n : same_curve e e' -> search_bump e s p n = search_bump e' s p n.
Proof. intro H; induction n as [|n IH]; cbn [search_bump]; [reflexivity|]. now rewrite H, IH. Qed.
Lemma pda_curve e e' s p : same_curve e e' -> pda e s p = pda e' s p.
Proof.
  intro H. unfold pda. enough (find_bump e s p = find_bump e' s p) as -> by reflexivity.
  Transparent find_bump. unfold find_bump. now apply search_bump_curve.
Qed.
#[global] Opaque find_bump.
Lemma wrapped_mint_of_curve e e' u p : same_curve e e' -> wrapped_mint_of e u p = wrapped_mint_of e' u p.
Proof. apply pda_curve. Qed.
Lemma authority_of_curve e e' w : same_curve e e' -> authority_of e w = authority_of e' w.
Proof. apply pda_curve. Qed.
Lemma backpointer_of_curve e e' w : same_curve e e' -> backpointer_of e w = backpointer_of e' w.
Proof. apply pda_curve. Qed.
Lemma canonical_pointer_of_curve e e' u : same_curve e e' -> canonical_pointer_of e u = canonical_pointer_of e' u.
Proof. apply pda_curve. Qed.
Lemma ata_of_curve e e' w m p : same_curve e e' -> ata_of e w m p = ata_of e' w m p.
Proof. apply pda_curve. Qed.
Lemma escrow_of_curve e e' u x p : same_curve e e' -> escrow_of e u x p = escrow_of e' u x p.
Proof.
  intro H. unfold escrow_of, escrow_for, ata_of, authority_for, wrapped_mint_for.
  rewrite (pda_curve e e' (wrapped_mint_seeds u p) tw_id H).
  rewrite (pda_curve e e' (wrapped_mint_authority_seeds _) tw_id H). now apply pda_curve.
Qed.

(** ** Injectivity and disjointness *)
Lemma pda_inj e s p e' s' p' : pda e s p = pda e' s' p' -> s = s' /\ p = p'.
Proof.
  unfold pda; intro H; inversion H as [[H1 H2]]. apply app_inj_tail in H1. tauto.
Qed.

Lemma wrapped_mint_for_inj e e' u wtp prog u' wtp' prog' :
  wrapped_mint_for e u wtp prog = wrapped_mint_for e' u' wtp' prog' -> u = u' /\ wtp = wtp' /\ prog = prog'.
Proof. intro H; apply pda_inj in H; destruct H as [H1 H2]; inversion H1; auto. Qed.
Lemma authority_for_inj e e' w prog w' prog' :
  authority_for e w prog = authority_for e' w' prog' -> w = w' /\ prog = prog'.
Proof. intro H; apply pda_inj in H; destruct H as [H1 H2]; inversion H1; auto. Qed.
Lemma backpointer_for_inj e e' w prog w' prog' :
  backpointer_for e w prog = backpointer_for e' w' prog' -> w = w' /\ prog = prog'.
Proof. intro H; apply pda_inj in H; destruct H as [H1 H2]; inversion H1; auto. Qed.
Lemma canonical_pointer_for_inj e e' u prog u' prog' :
  canonical_pointer_for e u prog = canonical_pointer_for e' u' prog' -> u = u' /\ prog = prog'.
Proof. intro H; apply pda_inj in H; destruct H as [H1 H2]; inversion H1; auto. Qed.
Lemma ata_of_inj e e' a m p a' m' p' : ata_of e a m p = ata_of e' a' m' p' -> a = a' /\ m = m' /\ p = p'.
Proof. intro H; apply pda_inj in H; destruct H as [H1 _]; inversion H1; auto. Qed.
Lemma escrow_for_inj e e' u utp wtp prog u' utp' wtp' prog' :
  escrow_for e u utp wtp prog = escrow_for e' u' utp' wtp' prog' ->
  u = u' /\ utp = utp' /\ wtp = wtp' /\ prog = prog'.
Proof.
  intro H; apply ata_of_inj in H; destruct H as (H1 & H2 & H3).
  apply authority_for_inj in H1; destruct H1 as [H1 _].
  apply wrapped_mint_for_inj in H1; destruct H1 as (_ & H4 & H5). auto.
Qed.
Lemma wrapped_mint_of_inj e u wtp u' wtp' :
  wrapped_mint_of e u wtp = wrapped_mint_of e u' wtp' -> u = u' /\ wtp = wtp'.
Proof. unfold wrapped_mint_of; intro H; apply wrapped_mint_for_inj in H; tauto. Qed.
Lemma authority_of_inj e w w' : authority_of e w = authority_of e w' -> w = w'.
Proof. unfold authority_of; intro H; apply authority_for_inj in H; tauto. Qed.
Lemma backpointer_of_inj e w w' : backpointer_of e w = backpointer_of e w' -> w = w'.
Proof. unfold backpointer_of; intro H; apply backpointer_for_inj in H; tauto. Qed.
Lemma canonical_pointer_of_inj e w w' : canonical_pointer_of e w = canonical_pointer_of e w' -> w = w'.
Proof. unfold canonical_pointer_of; intro H; apply canonical_pointer_for_inj in H; tauto. Qed.
Lemma escrow_of_inj e u utp wtp u' utp' wtp' :
  escrow_of e u utp wtp = escrow_of e u' utp' wtp' -> u = u' /\ utp = utp' /\ wtp = wtp'.
Proof. unfold escrow_of; intro H; apply escrow_for_inj in H; tauto. Qed.

Ltac pda_discr :=
  let H := fresh in
  intro H; apply pda_inj in H; destruct H as [H _]; vm_compute in H; congruence.

Lemma wrapped_neq_authority e u p w : wrapped_mint_of e u p <> authority_of e w.
Proof. pda_discr. Qed.
Lemma wrapped_neq_backpointer e u p w : wrapped_mint_of e u p <> backpointer_of e w.
Proof. pda_discr. Qed.
Lemma wrapped_neq_canonical e u p w : wrapped_mint_of e u p <> canonical_pointer_of e w.
Proof. pda_discr. Qed.
Lemma authority_neq_backpointer e w w' : authority_of e w <> backpointer_of e w'.
Proof. pda_discr. Qed.
Lemma authority_neq_canonical e w u : authority_of e w <> canonical_pointer_of e u.
Proof. pda_discr. Qed.
Lemma backpointer_neq_canonical e w u : backpointer_of e w <> canonical_pointer_of e u.
Proof. pda_discr. Qed.

(** Escrows and Metaplex accounts are never token-wrap PDAs. *)
Lemma is_tw_pda_wrapped e u p : is_tw_pda (wrapped_mint_of e u p) = true.
Proof. reflexivity. Qed.
Lemma is_tw_pda_authority e w : is_tw_pda (authority_of e w) = true.
Proof. reflexivity. Qed.
Lemma is_tw_pda_backpointer e w : is_tw_pda (backpointer_of e w) = true.
Proof. reflexivity. Qed.
Lemma is_tw_pda_canonical e w : is_tw_pda (canonical_pointer_of e w) = true.
Proof. reflexivity. Qed.
Lemma is_tw_pda_ata e a m p : is_tw_pda (ata_of e a m p) = false.
Proof. reflexivity. Qed.
Lemma is_tw_pda_escrow e u x p : is_tw_pda (escrow_of e u x p) = false.
Proof. reflexivity. Qed.
Lemma is_tw_pda_metaplex e m : is_tw_pda (metaplex_of e m) = false.
Proof. reflexivity. Qed.

(** ** Acyclicity: an address is never one of its own seeds. *)
Fixpoint pk_depth (k : pubkey) : nat :=
  match k with
  | PkRaw _ => O
  | PkDerived pre prog =>
      S (Nat.max
           ((fix go (l : list (N + pubkey)) : nat :=
               match l with
               | [] => O
               | inl _ :: r => go r
               | inr j :: r => Nat.max (pk_depth j) (go r)
               end) pre) (pk_depth prog))
  end.
Lemma pk_depth_in pre prog j : In (inr j) pre -> (pk_depth j < pk_depth (PkDerived pre prog))%nat.
Proof.
  intro H. cbn [pk_depth].
  match goal with |- context [?f pre] => set (go := f) end.
  assert (Hgo : (pk_depth j <= go pre)%nat).
  { clear -H. induction pre as [|a r IH]; [destruct H|]. destruct H as [->|H].
    - unfold go at 1. fold go. lia.
    - specialize (IH H). destruct a; unfold go at 1; fold go; lia. }
  lia.
Qed.
Lemma pda_depth e s p j : In (inr j) s -> (pk_depth j < pk_depth (pda e s p))%nat.
Proof. intro H. apply pk_depth_in. apply in_or_app. left. exact H. Qed.
Lemma pda_seed_neq e s p j : In (inr j) s -> pda e s p <> j.
Proof. intros H E. apply (pda_depth e s p) in H. rewrite E in H. lia. Qed.
Lemma wrapped_neq_unwrapped e u p : wrapped_mint_of e u p <> u.
Proof. apply pda_seed_neq; simpl; auto 10. Qed.
Lemma wrapped_neq_program e u p : wrapped_mint_of e u p <> p.
Proof. apply pda_seed_neq; simpl; auto 10. Qed.
Lemma authority_neq_seed e w : authority_of e w <> w.
Proof. apply pda_seed_neq; simpl; auto 20. Qed.
Lemma backpointer_neq_seed e w : backpointer_of e w <> w.
Proof. apply pda_seed_neq; simpl; auto 20. Qed.
Lemma canonical_neq_seed e u : canonical_pointer_of e u <> u.
Proof. apply pda_seed_neq; simpl; auto 30. Qed.
Lemma ata_neq_mint e a m p : ata_of e a m p <> m.
Proof. apply pda_seed_neq; simpl; auto. Qed.
Lemma ata_neq_wallet e a m p : ata_of e a m p <> a.
Proof. apply pda_seed_neq; simpl; auto. Qed.
Lemma metaplex_neq_seed e m : metaplex_of e m <> m.
Proof. apply pda_seed_neq; simpl; auto 20. Qed.
Lemma unwrapped_neq_wrapped e u p : u <> wrapped_mint_of e u p.
Proof. intro H; symmetry in H; revert H; apply wrapped_neq_unwrapped. Qed.
Lemma depth_wrapped e u p : (pk_depth u < pk_depth (wrapped_mint_of e u p))%nat.
Proof. apply pda_depth; simpl; auto 20. Qed.
Lemma depth_backpointer e w : (pk_depth w < pk_depth (backpointer_of e w))%nat.
Proof. apply pda_depth; simpl; auto 20. Qed.
Lemma depth_authority e w : (pk_depth w < pk_depth (authority_of e w))%nat.
Proof. apply pda_depth; simpl; auto 20. Qed.
Lemma depth_ata e a m p : (pk_depth a < pk_depth (ata_of e a m p))%nat.
Proof. apply pda_depth; simpl; auto 20. Qed.
Lemma backpointer_neq_unwrapped e u p : backpointer_of e (wrapped_mint_of e u p) <> u.
Proof.
  intro H. pose proof (depth_wrapped e u p). pose proof (depth_backpointer e (wrapped_mint_of e u p)) as D.
  rewrite H in D. lia.
Qed.
Lemma authority_neq_unwrapped e u p : authority_of e (wrapped_mint_of e u p) <> u.
Proof.
  intro H. pose proof (depth_wrapped e u p). pose proof (depth_authority e (wrapped_mint_of e u p)) as D.
  rewrite H in D. lia.
Qed.

(** ** Inversion of the getters *)
Lemma get_wrapped_mint_address_with_seed_ok e u p kb :
  get_wrapped_mint_address_with_seed e u p = Ok kb ->
  fst kb = wrapped_mint_of e u p /\
  create_program_address e (wrapped_mint_signer_seeds u p (snd kb)) tw_id = Ok (wrapped_mint_of e u p).
Proof.
  destruct kb as [k b]; intro H. pose proof (find_pda_create _ _ _ _ _ H) as Hc.
  apply find_pda_ok in H. destruct H as (-> & _). split; [reflexivity|exact Hc].
Qed.
Lemma get_wrapped_mint_address_ok e u p k :
  get_wrapped_mint_address e u p = Ok k -> k = wrapped_mint_of e u p.
Proof.
  unfold get_wrapped_mint_address, get_wrapped_mint_address_for_program. intro H. inv_ok. subst.
  apply find_pda_fst in E. exact E.
Qed.
Lemma get_wrapped_mint_authority_with_seed_ok e w kb :
  get_wrapped_mint_authority_with_seed e w = Ok kb ->
  fst kb = authority_of e w /\
  create_program_address e (wrapped_mint_authority_signer_seeds w (snd kb)) tw_id = Ok (authority_of e w).
Proof.
  destruct kb as [k b]; intro H. pose proof (find_pda_create _ _ _ _ _ H) as Hc.
  apply find_pda_ok in H. destruct H as (-> & _). split; [reflexivity|exact Hc].
Qed.
Lemma get_wrapped_mint_authority_ok e w k :
  get_wrapped_mint_authority e w = Ok k -> k = authority_of e w.
Proof.
  unfold get_wrapped_mint_authority, get_wrapped_mint_authority_for_program. intro H. inv_ok. subst.
  apply find_pda_fst in E. exact E.
Qed.
Lemma get_backpointer_with_seed_ok e w kb :
  get_wrapped_mint_backpointer_address_with_seed e w = Ok kb ->
  fst kb = backpointer_of e w /\
  create_program_address e (backpointer_signer_seeds w (snd kb)) tw_id = Ok (backpointer_of e w).
Proof.
  destruct kb as [k b]; intro H. pose proof (find_pda_create _ _ _ _ _ H) as Hc.
  apply find_pda_ok in H. destruct H as (-> & _). split; [reflexivity|exact Hc].
Qed.
Lemma get_canonical_with_seed_ok e u kb :
  get_canonical_pointer_address_with_seed e u = Ok kb ->
  fst kb = canonical_pointer_of e u /\
  create_program_address e (canonical_pointer_signer_seeds u (snd kb)) tw_id = Ok (canonical_pointer_of e u).
Proof.
  destruct kb as [k b]; intro H. pose proof (find_pda_create _ _ _ _ _ H) as Hc.
  apply find_pda_ok in H. destruct H as (-> & _). split; [reflexivity|exact Hc].
Qed.
Lemma get_ata_ok e a m p k :
  get_associated_token_address e a m p = Ok k -> k = ata_of e a m p.
Proof. unfold get_associated_token_address. intro H. inv_ok. subst. apply find_pda_fst in E. exact E. Qed.
Lemma metaplex_find_pda_ok e m kb : metaplex_find_pda e m = Ok kb -> fst kb = metaplex_of e m.
Proof. apply find_pda_fst. Qed.
