(** * PropRedeem.v — C19: wrapped tokens can be redeemed, in every reachable state. *)
From Verif Require Import Base Codec State Pda TokenProg Cpi Meta Processor Builders Demo Demo2 PdaProofs Spec HistorySpec UnwrapLive DemoHist.

(** C19: all holders of a wrapped token together never hold more than the escrow does. *)
Theorem C19_covered : forall e0 past l u utp wtp holders,
  history e0 past l -> ever (no_permanent_delegate u) past l -> spl_or_t22 wtp -> spl_or_t22 utp -> a_owner (l u) = utp -> NoDup holders ->
  hold_together l wtp (wrapped_mint_of e0 u wtp) holders <= escrowed e0 l u utp wtp.
Proof. exact covered_l. Qed.
Print Assumptions C19_covered.

(** C19: in every reachable state, any holder can unwrap any positive amount up to their balance, to any
    recipient that can receive the tokens.  Nothing is assumed about the existence, the owner or the
    balance of the escrow, the wrapped supply or the recipient's balance: that they suffice (and do not
    overflow) is proved.  What remains in the hands of the unwrapped mint's authorities: pausing it,
    freezing the escrow, a transfer hook, or having created the escrow account as non-transferable.
    (For wrapped SOL, that the lamports of two accounts do not overflow 64 bits is a hypothesis: lamports
    are not created or destroyed on Solana, which [world_change] does not say.) *)
Theorem C19_redeemable : forall e0 e past l u utp wtp accounts more signers n recipient source owner mu ts tr,
  history e0 past l -> ever (no_permanent_delegate u) past l -> same_curve e0 e -> spl_or_t22 wtp -> spl_or_t22 utp ->
  let w := wrapped_mint_of e u wtp in let a := authority_of e w in let esc := escrow_of e u utp wtp in
  derivable e (wrapped_mint_seeds u wtp) tw_id -> derivable e (wrapped_mint_authority_seeds w) tw_id -> derivable e (ata_seeds a u utp) ata_id ->
  map i_key accounts = [esc; recipient; a; u; wtp; utp; source; w; owner] ++ more ->
  writable accounts esc -> writable accounts recipient -> writable accounts source -> writable accounts w ->
  e_multisig e l owner (skipn 9 accounts) = Ok signers -> incl signers more -> owner_acts accounts l wtp owner signers ->
  appends_signers e accounts ->
  holder l wtp w source owner ts -> 0 < n -> n <= t_amount ts ->
  transferable l utp u mu -> can_receive e l utp u recipient mu tr -> recipient <> esc -> open_account l esc ->
  (native_mint u -> lamports l recipient + lamports l esc < two64) ->
  exists l', succeeds e accounts (Unwrap n) l l'.
Proof.
  intros e0 e past l u utp wtp accounts more signers n recipient source owner mu ts tr H NP C Tw Tu w a esc D1 D2 D3 Hk We Wr Ws Ww Hms Hin Own Hex.
  exact (redeem_l e0 e past l u utp wtp accounts more signers n recipient source owner mu ts tr H NP C Tw Tu D1 D2 D3 Hk Hms Hin Hex We Wr Ws Ww Own).
Qed.
Print Assumptions C19_redeemable.

(** ** The hypotheses are met *)
(** At the end of the demo history Bob, who got his 50 wrapped tokens from Alice, can redeem 30 of them
    to an account of the unwrapped mint. *)
Definition bob_redeems : tw_instruction :=
  build_unwrap tw_id (d_esc spl_token_id t22_id) d_alice_u (d_a t22_id) d_u t22_id spl_token_id d_bob_w (d_w t22_id) d_bob [] 30.
Lemma demo_derivable s p : derivable demo_env s p.
Proof. exists 255. split; [lia|reflexivity]. Qed.
Lemma in_writable accounts k : existsb (fun i => pk_eqb (i_key i) k && i_writable i) accounts = true -> writable accounts k.
Proof.
  intro H. apply existsb_exists in H. destruct H as (i & Hi & E). apply andb_true_iff in E. destruct E as [E1 E2]. apply pk_eqb_eq in E1.
  exists i. auto.
Qed.
Example C19_nonvacuous : exists l', succeeds demo_env (tx_metas bob_redeems) (Unwrap 30) (now_of story) l'.
Proof.
  assert (S : exists ts, a_data (now_of story d_bob_w) = DTok ts) by (eexists; vm_compute; reflexivity). destruct S as [ts Hs].
  assert (R : exists tr, a_data (now_of story d_alice_u) = DTok tr) by (eexists; vm_compute; reflexivity). destruct R as [tr Hr].
  assert (E : exists te, a_data (now_of story (d_esc spl_token_id t22_id)) = DTok te) by (eexists; vm_compute; reflexivity). destruct E as [te He].
  assert (M : exists mu, a_data (now_of story d_u) = DMint mu) by (eexists; vm_compute; reflexivity). destruct M as [mu Hm].
  apply (C19_redeemable demo_env demo_env (past_of story) (now_of story) d_u spl_token_id t22_id (tx_metas bob_redeems) [] [] 30 d_alice_u d_bob_w d_bob mu ts tr).
  - apply played_history. vm_compute. reflexivity.
  - exact story_no_pd.
  - apply same_curve_refl.
  - right; reflexivity.
  - left; reflexivity.
  - apply demo_derivable.
  - apply demo_derivable.
  - apply demo_derivable.
  - vm_compute. reflexivity.
  - apply in_writable. vm_compute. reflexivity.
  - apply in_writable. vm_compute. reflexivity.
  - apply in_writable. vm_compute. reflexivity.
  - apply in_writable. vm_compute. reflexivity.
  - reflexivity.
  - intros x [].
  - left. split; [reflexivity|]. split; [|intros m X; exfalso; vm_compute in X; discriminate X].
    exists (meta_r d_bob true). split; [do 8 right; left; reflexivity|split; reflexivity].
  - intro l1. exists []. split; [reflexivity|intros k []].
  - revert Hs. vm_compute. intro X. inversion X; subst ts. repeat split; auto; discriminate.
  - lia.
  - revert Hs. vm_compute. intro X. inversion X; subst ts. discriminate.
  - revert Hm. vm_compute. intro X. inversion X; subst mu. repeat split; auto; intros; discriminate.
  - revert Hr Hm. vm_compute. intros X Y. inversion X; subst tr. inversion Y; subst mu. repeat split; auto; try discriminate; intro Z; exfalso; apply Z; reflexivity.
  - vm_compute. discriminate.
  - intros t X. change (a_data (now_of story (d_esc spl_token_id t22_id)) = DTok t) in X. rewrite He in X. inversion X; subst t. clear X. revert He. vm_compute. intro X. inversion X; subst te. split; [reflexivity|intros []].
  - intros [X|X]; exfalso; vm_compute in X; discriminate X.
Qed.
(** Alice and Bob together hold what the escrow holds. *)
Example C19_covered_nonvacuous :
  hold_together (now_of story) t22_id (wrapped_mint_of demo_env d_u t22_id) [d_alice_w; d_bob_w] = 200 /\
  escrowed demo_env (now_of story) d_u spl_token_id t22_id = 200 /\ NoDup [d_alice_w; d_bob_w].
Proof. split; [vm_compute; reflexivity|]. split; [vm_compute; reflexivity|]. repeat constructor; [intros [X|[]]; discriminate|intros []]. Qed.
