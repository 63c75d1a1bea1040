(** * PointerProofs.v — SetCanonicalPointer in the vocabulary of Spec.v. *)
From Verif Require Import Base Codec State Pda TokenProg Cpi Meta Processor Tac CodecProofs PdaProofs TokProofs FrameProofs ProcProofs Spec SpecLemmas WrapProofs CreateProofs CreateProofs2 CreateSpec SyncProofs SyncProofs2 CloseProofs SyncSpec SyncLive.

Lemma pointer_outcome e accounts bs l : expressible (SetCanonicalPointer bs) ->
  outcome e accounts (SetCanonicalPointer bs) l = process_set_canonical_pointer e (mkCtx tw_id accounts) (e_key_of_bytes e bs) l.
Proof. intro H. rewrite outcome_instr; [reflexivity|]. cbn in *. tauto. Qed.

Lemma pointer_exact_l e accounts bs l l' a p u x :
  keys_are accounts [a; p; u; x] -> expressible (SetCanonicalPointer bs) -> succeeds e accounts (SetCanonicalPointer bs) l l' ->
  signed accounts a /\ p = canonical_pointer_of e u /\ (writable accounts p \/ l p = mkAcc (lamports l p) (DKey (e_key_of_bytes e bs)) tw_id) /\
  (exists prog m, spl_or_t22 prog /\ mint_account l u prog m /\ m_auth m = Some a) /\
  (no_data l p /\ a_owner (l p) = system_id /\ e_rent e 32 <= lamports l p \/
   data_len (a_data (l p)) = 32 /\ a_owner (l p) = tw_id) /\
  l' p = mkAcc (lamports l p) (DKey (e_key_of_bytes e bs)) tw_id /\ forall k, k <> p -> l' k = l k.
Proof.
  intros [more Hk] Hx H. unfold succeeds in H. rewrite pointer_outcome in H by exact Hx.
  destruct (process_set_pointer_inv e (mkCtx tw_id accounts) _ l l' a p u x more Hk eq_refl H) as (S & O & P & W & (m & Hm & Ha) & C & R).
  split; [apply signed_is_sig; exact S|]. split; [exact P|]. split. { destruct W as [W|[W1 W2]]; [left; apply writable_is_wr; exact W|right]. unfold lamports. destruct (l p); cbn in *; congruence. } split.
  - exists (a_owner (l u)), m. apply pod_unpack_mint_inv in Hm. split; [exact O|]. split; [split; [reflexivity|exact Hm]|exact Ha].
  - split; [|exact R]. destruct C as [(A & B)|C]; [left|right; exact C]. apply N.eqb_eq in A. auto.
Qed.
Lemma pointer_refused_l e accounts bs l a p u x prog m :
  keys_are accounts [a; p; u; x] -> expressible (SetCanonicalPointer bs) -> spl_or_t22 prog -> mint_account l u prog m ->
  (signed accounts a -> exists i r, accounts = i :: r /\ i_signer i = true) ->
  (~ signed accounts a -> fails e accounts (SetCanonicalPointer bs) l EMissingRequiredSignature) /\
  (signed accounts a -> m_auth m = None -> fails e accounts (SetCanonicalPointer bs) l EInvalidAccountData) /\
  (signed accounts a -> forall b, m_auth m = Some b -> b <> a -> fails e accounts (SetCanonicalPointer bs) l EIncorrectAuthority).
Proof.
  intros [more Hk] Hx Hp (Ho & Hm & Hi) Hs. unfold fails. rewrite pointer_outcome by exact Hx.
  destruct accounts as [|i1 [|i2 [|i3 [|i4 rest]]]]; try discriminate. cbn in Hk. injection Hk as K1 K2 K3 K4 _.
  unfold process_set_canonical_pointer. cbn [c_infos]. cbv zeta. rewrite K1, K2, K3.
  assert (To : pk_eqb (a_owner (l u)) spl_token_id || pk_eqb (a_owner (l u)) t22_id = true) by (rewrite Ho; destruct Hp as [-> | ->]; reflexivity).
  split; [|split].
  - intro N. destruct (i_signer i1) eqn:E; [|reflexivity]. exfalso. apply N. exists i1. split; [left; reflexivity|auto].
  - intros S N. destruct (Hs S) as (i & r & E & Si). injection E as <- _. rewrite Si. cbn [guard bind]. rewrite To. cbn [guard bind]. rewrite Hm, pod_unpack_mint_ok by exact Hi. cbn [bind]. rewrite N. reflexivity.
  - intros S b Hb N. destruct (Hs S) as (i & r & E & Si). injection E as <- _. rewrite Si. cbn [guard bind]. rewrite To. cbn [guard bind]. rewrite Hm, pod_unpack_mint_ok by exact Hi. cbn [bind]. rewrite Hb. cbn [of_option bind].
    rewrite (proj2 (pk_eqb_neq _ _) N). reflexivity.
Qed.
Lemma pointer_live_l e i rest bs l a p u prog m :
  let accounts := i :: rest in
  keys_are accounts [a; p; u; system_id] -> expressible (SetCanonicalPointer bs) -> i_signer i = true -> writable accounts p ->
  derivable e (canonical_pointer_seeds u) tw_id -> p = canonical_pointer_of e u ->
  spl_or_t22 prog -> mint_account l u prog m -> m_auth m = Some a ->
  (no_data l p /\ a_owner (l p) = system_id /\ e_rent e 32 <= lamports l p \/
   data_len (a_data (l p)) = 32 /\ a_owner (l p) = tw_id) ->
  exists l', succeeds e accounts (SetCanonicalPointer bs) l l'.
Proof.
  intros accounts Hks Hx Hs Wr D Ep Hp (Ho & Hm & Hi) Ha Hc. unfold succeeds. setoid_rewrite pointer_outcome; [|exact Hx].
  assert (Hsys : has_key accounts system_id = true) by (eapply keys_has; [exact Hks|cbn; auto 6]).
  apply writable_is_wr in Wr.
  assert (Npu : p <> u) by (rewrite Ep; apply canonical_neq_seed).
  assert (Hcr : create_program_address e (canonical_pointer_signer_seeds u (find_bump e (canonical_pointer_seeds u) tw_id)) tw_id = Ok p).
  { rewrite Ep. change (canonical_pointer_signer_seeds u ?b) with (canonical_pointer_seeds u ++ [inl b]). apply find_pda_create. apply findable_get. exact D. }
  pose proof Hks as [more Hk]. unfold accounts in *. destruct rest as [|i2 [|i3 [|i4 rest]]]; try discriminate. cbn in Hk. injection Hk as K1 K2 K3 K4 _.
  unfold process_set_canonical_pointer. cbn [c_infos]. cbv zeta. rewrite K1, K2, K3, Hs. cbn [guard bind].
  assert (To : pk_eqb (a_owner (l u)) spl_token_id || pk_eqb (a_owner (l u)) t22_id = true) by (rewrite Ho; destruct Hp as [-> | ->]; reflexivity).
  rewrite To. cbn [guard bind]. rewrite Hm, pod_unpack_mint_ok by exact Hi. cbn [bind]. rewrite Ha. cbn [of_option bind]. rewrite pk_eqb_refl. cbn [guard bind].
  unfold get_canonical_pointer_address_with_seed, get_canonical_pointer_address_with_seed_for_program. rewrite (findable_get _ _ _ D). cbn [bind fst snd].
  change (pda e (canonical_pointer_seeds u) tw_id) with (canonical_pointer_of e u). rewrite <- Ep, pk_eqb_refl. cbn [guard bind c_prog].
  assert (Hw : forall l2, data_len (a_data (l2 p)) = 32 -> a_owner (l2 p) = tw_id -> exists l', write_key (mkCtx tw_id (i :: i2 :: i3 :: i4 :: rest)) p (e_key_of_bytes e bs) l2 = Ok l').
  { intros l2 A B. unfold write_key. rewrite A, N.eqb_refl. cbn [guard bind]. cbn [c_infos c_prog]. rewrite Wr, B, pk_eqb_refl. cbn [orb guard bind]. eexists; reflexivity. }
  destruct Hc as [(Hn & Hso & Hr)|(Hl & Ht)].
  - replace (data_is_empty (a_data (l p))) with true by (symmetry; apply N.eqb_eq; exact Hn).
    replace (e_rent e 32 <=? a_lamports (l p)) with true by (symmetry; apply N.leb_le; exact Hr). cbn [guard bind].
    rewrite (allocate_eval e _ p 32); cbn [c_infos c_prog]; [|exact Hcr|exact Hsys|exact Wr|apply N.eqb_eq; exact Hn|exact Hso|lia|intros [X|[]]; congruence]. cbn [bind].
    rewrite (assign_eval e _ p tw_id _ 32); cbn [c_infos c_prog]; [|exact Hcr|exact Hsys|exact Wr|rewrite upd_same; exact Hso|discriminate|rewrite upd_same; reflexivity|intros [X|[]]; congruence]. cbn [bind].
    apply Hw; rewrite !upd_same; cbn; [|reflexivity]. reflexivity.
  - replace (data_is_empty (a_data (l p))) with false by (symmetry; apply N.eqb_neq; rewrite Hl; discriminate). cbn [bind]. apply Hw; assumption.
Qed.
