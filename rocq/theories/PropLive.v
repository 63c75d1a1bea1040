(** * PropLive.v — C36: in every reachable state, tokens can be wrapped. *)
From Verif Require Import Base Codec State Pda TokenProg Cpi Meta Processor Builders Demo Demo2 PdaProofs Spec HistorySpec UnwrapLive WrapLive DemoHist PropRedeem.

(** C36: in every reachable state, once the wrapped mint, its escrow and the recipient's account exist, any holder
    of unwrapped tokens can wrap any positive amount up to their balance.  Nothing is assumed about the sizes of
    the escrow, the wrapped supply or the recipient's balance: that they do not overflow is proved from the backing
    of the wrapped supply (so that if the mint ever had a permanent delegate, "the supply does not overflow" is a
    hypothesis, as it is for the lamports of wrapped SOL).  That the escrow belongs to the authority, is for the
    right mint and does not demand memos is proved too. *)
Theorem C36_wrappable : forall e0 e past l u utp wtp accounts more signers n recipient source owner mu mw ts tr te,
  history e0 past l -> same_curve e0 e -> spl_or_t22 wtp -> spl_or_t22 utp ->
  let w := wrapped_mint_of e u wtp in let a := authority_of e w in let esc := escrow_of e u utp wtp in
  derivable e (wrapped_mint_seeds u wtp) tw_id -> derivable e (wrapped_mint_authority_seeds w) tw_id -> derivable e (ata_seeds a u utp) ata_id ->
  map i_key accounts = [recipient; w; a; utp; wtp; source; u; esc; owner] ++ more ->
  writable accounts esc -> writable accounts recipient -> writable accounts source -> writable accounts w ->
  (* the holder acts, alone or as a multisig of the unwrapped token program *)
  incl signers more -> e_extra e l accounts (skipn 9 accounts) = Ok (map (fun k => meta_r k true) signers) ->
  (forall m, a_data (l owner) = DMultisig m -> a_owner (l owner) = utp) -> owner_acts accounts l utp owner signers ->
  holder l utp u source owner ts -> open_account l source -> 0 < n -> n <= t_amount ts -> source <> esc ->
  transferable l utp u mu ->
  token_account l esc utp te -> t_state te = Initialized -> (ext_fee mu <> None -> In XtTransferFeeAmount (map acct_ext_type_of (t_exts te))) ->
  mint_account l w wtp mw -> token_account l recipient wtp tr -> t_mint tr = w -> t_state tr = Initialized ->
  (ever (no_permanent_delegate u) past l \/ supply l w + n < two64) ->
  (native_mint u -> lamports l esc + lamports l source < two64) ->
  exists l', succeeds e accounts (Wrap n) l l'.
Proof.
  intros e0 e past l u utp wtp accounts more signers n recipient source owner mu mw ts tr te H C Tw Tu w a esc D1 D2 D3 Hk We Wr Ws Ww Hin Hex Mo Own
    Hs Op Pos Le Ne Hu He Ste Wit Hw Hr Mr Sr Sup Nat.
  exact (wrappable_aux2 e0 e past l u utp wtp accounts more signers n recipient source owner mu mw ts tr te w a esc H C Tw Tu eq_refl eq_refl eq_refl D1 D2 D3 Hk Hin Hex Mo
    We Wr Ws Ww Own Hw Hr Mr Sr Hs Op Pos Le Ne Hu He Ste Wit Sup Nat).
Qed.
Print Assumptions C36_wrappable.

(** At the end of the demo history Alice wraps 70 more. *)
Example C36_nonvacuous : exists l', succeeds demo_env (tx_metas (i_wrap 70)) (Wrap 70) (now_of story) l'.
Proof.
  assert (S : exists ts, a_data (now_of story d_alice_u) = DTok ts) by (eexists; vm_compute; reflexivity). destruct S as [ts Hs].
  assert (R : exists tr, a_data (now_of story d_alice_w) = DTok tr) by (eexists; vm_compute; reflexivity). destruct R as [tr Hr].
  assert (E : exists te, a_data (now_of story (d_esc spl_token_id t22_id)) = DTok te) by (eexists; vm_compute; reflexivity). destruct E as [te He].
  assert (M : exists mu, a_data (now_of story d_u) = DMint mu) by (eexists; vm_compute; reflexivity). destruct M as [mu Hm].
  assert (W : exists mw, a_data (now_of story (d_w t22_id)) = DMint mw) by (eexists; vm_compute; reflexivity). destruct W as [mw Hw].
  apply (C36_wrappable demo_env demo_env (past_of story) (now_of story) d_u spl_token_id t22_id (tx_metas (i_wrap 70)) [] [] 70 d_alice_w d_alice_u d_alice mu mw ts tr te).
  - apply played_history. vm_compute. reflexivity.
  - apply same_curve_refl.
  - right; reflexivity.
  - left; reflexivity.
  - apply demo_derivable.
  - apply demo_derivable.
  - apply demo_derivable.
  - vm_compute. reflexivity.
  - apply in_writable. vm_compute. reflexivity.
  - apply in_writable. vm_compute. reflexivity.
  - apply in_writable. vm_compute. reflexivity.
  - apply in_writable. vm_compute. reflexivity.
  - intros x [].
  - reflexivity.
  - intros m X. exfalso. vm_compute in X. discriminate X.
  - left. split; [reflexivity|]. split; [|intros m X; exfalso; vm_compute in X; discriminate X].
    exists (meta_r d_alice true). split; [do 8 right; left; reflexivity|split; reflexivity].
  - revert Hs. vm_compute. intro X. inversion X; subst ts. repeat split; auto; discriminate.
  - intros t X. change (a_data (now_of story d_alice_u) = DTok t) in X. rewrite Hs in X. inversion X; subst t. clear X. revert Hs. vm_compute. intro X. inversion X; subst ts. split; [reflexivity|intros []].
  - lia.
  - revert Hs. vm_compute. intro X. inversion X; subst ts. discriminate.
  - vm_compute. discriminate.
  - revert Hm. vm_compute. intro X. inversion X; subst mu. repeat split; auto; intros; discriminate.
  - revert He. vm_compute. intro X. inversion X; subst te. repeat split; auto; discriminate.
  - revert He. vm_compute. intro X. inversion X; subst te. reflexivity.
  - revert Hm. vm_compute. intro Y. inversion Y; subst mu. intro Z. exfalso. apply Z. reflexivity.
  - revert Hw. vm_compute. intro X. inversion X; subst mw. repeat split; auto; discriminate.
  - revert Hr. vm_compute. intro X. inversion X; subst tr. repeat split; auto; discriminate.
  - revert Hr. vm_compute. intro X. inversion X; subst tr. reflexivity.
  - revert Hr. vm_compute. intro X. inversion X; subst tr. reflexivity.
  - left. exact story_no_pd.
  - intros [X|X]; exfalso; vm_compute in X; discriminate X.
Qed.
