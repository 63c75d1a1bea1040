(** * PropDiscover.v — C59: from a wrapped mint alone, its backpointer tells the unwrapped mint, and nothing else ever does. *)
From Verif Require Import Base Codec State Pda TokenProg Cpi Ata Meta Processor Builders Cli Js JsAccounts Tac PdaProofs TokProofs ProcProofs CliProofs Spec SpecLemmas HistorySpec
  InvState InvTw InvHist HistProofs Demo Demo2 DemoHist PropHistory PropRedeem PropJsTx CliCreate.

(** ** Specification *)
(** [w] is the wrapped mint of [u] under program [p], and has been created. *)
Definition wraps (e : env) (l : ledger) (w u p : pubkey) : Prop :=
  spl_or_t22 p /\ w = wrapped_mint_of e u p /\ exists m, mint_account l w p m /\ m_auth m = Some (authority_of e w).
(** The runtime drops accounts without lamports. *)
Definition no_ghost (l : ledger) (k : pubkey) : Prop := lamports l k = 0 -> unallocated l k.

(** ** Proofs *)
Lemma js_b_ok e w b : js_backpointer e w = Ok b -> b = backpointer_of e w.
Proof.
  intro H. change (js_backpointer e w) with (r <- find_program_address e (backpointer_seeds w) tw_id ;; Ok (fst r)) in H.
  apply bind_ok in H. destruct H as ([k n] & E & H). injection H as <-. exact (find_pda_fst _ _ _ _ E).
Qed.
Lemma js_b_derivable e w : derivable e (backpointer_seeds w) tw_id -> js_backpointer e w = Ok (backpointer_of e w).
Proof.
  intro D. rewrite js_b_eq. exact (get_b_ok e w D).
Qed.
(** What can stand at the backpointer address of any key. *)
Lemma at_backpointer e0 l w : reachable e0 l ->
  unallocated l (backpointer_of e0 w) \/
  exists u p, wraps e0 l w u p /\ a_owner (l (backpointer_of e0 w)) = tw_id /\ a_data (l (backpointer_of e0 w)) = DKey u.
Proof.
  intro R. pose proof (inv_pda e0 l _ (reachable_inv _ _ R) (is_tw_pda_backpointer e0 w)) as P.
  destruct P as [B|[(u & p & _ & K & _)|[(u & p & T & K & O & D)|(u & v & K & _)]]].
  - left. exact B.
  - exfalso. exact (wrapped_neq_backpointer _ _ _ _ (eq_sym K)).
  - right. exists u, p. apply backpointer_of_inj in K. split; [|split; [exact O|exact D]]. split; [exact T|]. split; [exact K|].
    destruct (together_l e0 l u p R T) as [[_ [X _]]|(m & M & A & _)].
    + exfalso. rewrite <- K in X. rewrite D in X. discriminate X.
    + exists m. rewrite <- K in M, A. split; [exact M|exact A].
  - exfalso. exact (backpointer_neq_canonical _ _ _ K).
Qed.
Lemma at_wrapped e0 l w u p : reachable e0 l -> wraps e0 l w u p -> a_owner (l (backpointer_of e0 w)) = tw_id /\ a_data (l (backpointer_of e0 w)) = DKey u.
Proof.
  intros R (T & -> & m & [O _] & _). destruct (together_l e0 l u p R T) as [[[_ X] _]|(m' & _ & _ & Y)]; [|exact Y].
  exfalso. rewrite X in O. destruct T as [-> | ->]; discriminate O.
Qed.

(** If the reader returns a mint, [w] is its genuine wrapped mint. *)
Theorem C59_found : forall e0 e bytes l w u,
  reachable e0 l -> same_curve e0 e -> js_fetch_from_seeds e bytes l w = Ok u -> exists p, wraps e0 l w u p.
Proof.
  intros e0 e bytes l w u R C H. unfold js_fetch_from_seeds, js_fetch_maybe_from_seeds in H. apply bind_ok in H. destruct H as (r & H & F).
  apply bind_ok in H. destruct H as (b & B & H). apply js_b_ok in B. rewrite <- (backpointer_of_curve e0 e w C) in B. subst b.
  unfold js_fetch_maybe_backpointer, get_account in H.
  destruct (a_lamports (l (backpointer_of e0 w)) =? 0); [injection H as <-; discriminate F|].
  apply bind_ok in H. destruct H as (u' & D & H). injection H as <-. cbn in F. injection F as <-.
  destruct (at_backpointer e0 l w R) as [[X _]|(v & p & W & _ & X)]; unfold js_decode_backpointer in D; rewrite X in D; [discriminate D|].
  cbn in D. injection D as <-. exists p. exact W.
Qed.
Print Assumptions C59_found.

(** Of every wrapped mint it returns the unwrapped mint. *)
Theorem C59_finds : forall e0 e bytes l w u p,
  reachable e0 l -> same_curve e0 e -> derivable e (backpointer_seeds w) tw_id -> no_ghost l (backpointer_of e0 w) ->
  wraps e0 l w u p -> js_fetch_from_seeds e bytes l w = Ok u.
Proof.
  intros e0 e bytes l w u p R C D G W. destruct (at_wrapped e0 l w u p R W) as [O X].
  unfold js_fetch_from_seeds, js_fetch_maybe_from_seeds. rewrite (js_b_derivable e w D). cbn [bind]. rewrite <- (backpointer_of_curve e0 e w C).
  unfold js_fetch_maybe_backpointer, get_account. destruct (a_lamports (l (backpointer_of e0 w)) =? 0) eqn:Z.
  - exfalso. apply N.eqb_eq in Z. destruct (G Z) as [Y _]. rewrite X in Y. discriminate Y.
  - unfold js_decode_backpointer. cbn [bind]. rewrite X. reflexivity.
Qed.
Print Assumptions C59_finds.

(** "It doesn't exist" means that [w] is no wrapped mint; and for a key that is no wrapped mint the answer is "doesn't exist", provided nobody sent
    lamports to the address. *)
Theorem C59_absent : forall e0 e bytes l w,
  reachable e0 l -> same_curve e0 e -> derivable e (backpointer_seeds w) tw_id -> no_ghost l (backpointer_of e0 w) ->
  (js_fetch_maybe_from_seeds e bytes l w = Ok None -> forall u p, ~ wraps e0 l w u p) /\
  ((forall u p, ~ wraps e0 l w u p) -> lamports l (backpointer_of e0 w) = 0 -> js_fetch_maybe_from_seeds e bytes l w = Ok None).
Proof.
  intros e0 e bytes l w R C D G. unfold js_fetch_maybe_from_seeds. rewrite (js_b_derivable e w D). cbn [bind]. rewrite <- (backpointer_of_curve e0 e w C).
  unfold js_fetch_maybe_backpointer, get_account. split.
  - intros H u p W. destruct (at_wrapped e0 l w u p R W) as [O X]. destruct (a_lamports (l (backpointer_of e0 w)) =? 0) eqn:Z.
    + apply N.eqb_eq in Z. destruct (G Z) as [Y _]. rewrite X in Y. discriminate Y.
    + apply bind_ok in H. destruct H as (v & _ & H). discriminate H.
  - intros _ Z. unfold lamports in Z. rewrite Z. reflexivity.
Qed.
Print Assumptions C59_absent.

(** Many at once: the answers are those of the single reads, in order. *)
Theorem C59_all : forall e0 bytes l ws us,
  reachable e0 l -> js_fetch_all bytes l (map (backpointer_of e0) ws) = Ok us ->
  Forall2 (fun w u => exists p, wraps e0 l w u p) ws us.
Proof.
  intros e0 bytes l ws us R H. unfold js_fetch_all in H. apply bind_ok in H. destruct H as (rs & A & B). revert rs us A B.
  induction ws as [|w r IH]; intros rs us A B; cbn [map js_fetch_all_maybe map_res] in A; unfold js_fetch_all_maybe in A; cbn [map_res] in A.
  - injection A as <-. injection B as <-. constructor.
  - apply bind_ok in A. destruct A as (x & Hx & A). apply bind_ok in A. destruct A as (xs & Hxs & A). injection A as <-.
    cbn [map_res] in B. apply bind_ok in B. destruct B as (u & Hu & B). apply bind_ok in B. destruct B as (us' & Hus & B). injection B as <-.
    constructor; [|exact (IH xs us' Hxs Hus)]. unfold js_fetch_maybe_backpointer, get_account in Hx.
    destruct (a_lamports (l (backpointer_of e0 w)) =? 0); [injection Hx as <-; discriminate Hu|].
    apply bind_ok in Hx. destruct Hx as (u' & D & Hx). injection Hx as <-. cbn in Hu. injection Hu as <-.
    destruct (at_backpointer e0 l w R) as [[X _]|(v & p & W & _ & X)]; unfold js_decode_backpointer in D; rewrite X in D; [discriminate D|].
    cbn in D. injection D as <-. exists p. exact W.
Qed.
Print Assumptions C59_all.

(** FINDING: lamports sent to the address by anybody make the reader throw instead of answering "doesn't exist". *)
Theorem C59_prefunded_refuted : forall e0 e bytes l w,
  reachable e0 l -> same_curve e0 e -> (forall u p, ~ wraps e0 l w u p) -> lamports l (backpointer_of e0 w) <> 0 ->
  exists err, js_fetch_maybe_from_seeds e bytes l w = Err err.
Proof.
  intros e0 e bytes l w R C N Z. unfold js_fetch_maybe_from_seeds. destruct (js_backpointer e w) as [b|err] eqn:B; [|exists err; reflexivity].
  apply js_b_ok in B. rewrite <- (backpointer_of_curve e0 e w C) in B. subst b. cbn [bind]. unfold js_fetch_maybe_backpointer, get_account.
  apply N.eqb_neq in Z. unfold lamports in Z. rewrite Z. destruct (at_backpointer e0 l w R) as [[X _]|(u & p & W & _)]; [|exfalso; exact (N u p W)].
  unfold js_decode_backpointer. rewrite X. exists EInvalidArgument. reflexivity.
Qed.
Print Assumptions C59_prefunded_refuted.

(** "With this info, clients can easily unwrap tokens, even if they don't know the origin": a holder of tokens of [w] who knows nothing else reads the
    backpointer, the owner programs of the two mints, derives the other addresses, and the Unwrap goes through. *)
Theorem C59_unwraps : forall e0 e bytes past l w u utp wtp accounts more signers n recipient source owner mu ts tr,
  history e0 past l -> ever (no_permanent_delegate u) past l -> same_curve e0 e ->
  js_fetch_from_seeds e bytes l w = Ok u -> wtp = a_owner (l w) -> utp = a_owner (l u) -> spl_or_t22 utp ->
  let a := authority_of e w in let esc := ata_of e a u utp in
  derivable e (wrapped_mint_seeds u wtp) tw_id -> derivable e (wrapped_mint_authority_seeds w) tw_id -> derivable e (ata_seeds a u utp) ata_id ->
  map i_key accounts = [esc; recipient; a; u; wtp; utp; source; w; owner] ++ more ->
  writable accounts esc -> writable accounts recipient -> writable accounts source -> writable accounts w ->
  e_multisig e l owner (skipn 9 accounts) = Ok signers -> incl signers more -> owner_acts accounts l wtp owner signers ->
  appends_signers e accounts ->
  holder l wtp w source owner ts -> 0 < n -> n <= t_amount ts ->
  transferable l utp u mu -> can_receive e l utp u recipient mu tr -> recipient <> esc -> open_account l esc ->
  (native_mint u -> lamports l recipient + lamports l esc < two64) ->
  exists l', succeeds e accounts (Unwrap n) l l'.
Proof.
  intros e0 e bytes past l w u utp wtp accounts more signers n recipient source owner mu ts tr H NP C F Ew Eu Tu a esc.
  destruct (C59_found e0 e bytes l w u (ex_intro _ past H) C F) as (p & T & W & m & [O _] & _).
  assert (P : p = wtp) by (rewrite Ew; symmetry; exact O). rewrite P, (wrapped_mint_of_curve e0 e u wtp C) in W. rewrite P in T. clear P.
  subst a esc. cbv zeta. rewrite W. clear F Ew Eu O W m w p.
  exact (C19_redeemable e0 e past l u utp wtp accounts more signers n recipient source owner mu ts tr H NP C T Tu).
Qed.
Print Assumptions C59_unwraps.

(** ** Examples *)
Example C59_nonvacuous : reachable demo_env (now_of story) /\ wraps demo_env (now_of story) (d_w t22_id) d_u t22_id /\
  no_ghost (now_of story) (backpointer_of demo_env (d_w t22_id)) /\ derivable demo_env (backpointer_seeds (d_w t22_id)) tw_id.
Proof.
  split; [exists (past_of story); apply played_history; vm_compute; reflexivity|]. split.
  - split; [right; reflexivity|]. split; [reflexivity|].
    destruct (a_data (now_of story (d_w t22_id))) as [| |m| | |] eqn:E; try (exfalso; vm_compute in E; discriminate E).
    exists m. split; [split; [vm_compute; reflexivity|]|]; [split; [exact E|]|]; vm_compute in E; injection E as <-; reflexivity.
  - split; [intro X; exfalso; vm_compute in X; discriminate X|]. apply demo_derivable.
Qed.
(** Before the wrapped mint is created, its backpointer's address already holds lamports. *)
Definition before_creation : list cmd := firstn 5 setup.
Example C59_prefunded_example : forall bytes, reachable demo_env (now_of before_creation) /\ unallocated (now_of before_creation) (d_w t22_id) /\
  exists err, js_fetch_maybe_from_seeds demo_env bytes (now_of before_creation) (d_w t22_id) = Err err.
Proof.
  intro bytes. split; [exists (past_of before_creation); apply played_history; vm_compute; reflexivity|].
  split; [split; vm_compute; reflexivity|]. exists EInvalidArgument. vm_compute. reflexivity.
Qed.
