(** * PropHistory.v — properties of every history: C09, C10, C11, C17, C18, C30, C35. *)
From Verif Require Import Base Codec State Pda TokenProg Cpi Meta Processor Builders Demo Demo2 PdaProofs Spec SpecLemmas HistorySpec
  InvState InvTw InvHist HistProofs DemoHist.

(** C09: once the wrapped mint or its backpointer exists (in some state [x] of the history), the
    backpointer is a token-wrap account holding the unwrapped mint's address, from then on. *)
Theorem C09_backpointer : forall e0 past l u wtp x,
  history e0 past l -> spl_or_t22 wtp -> In x (l :: past) ->
  let w := wrapped_mint_of e0 u wtp in let b := backpointer_of e0 w in
  ~ unallocated x w \/ ~ unallocated x b ->
  a_owner (l b) = tw_id /\ a_data (l b) = DKey u.
Proof. exact backpointer_l. Qed.
Print Assumptions C09_backpointer.

(** C10: wrapped mint and backpointer exist together, the former initialised, under the right program
    and authority. *)
Theorem C10_together : forall e0 l u wtp,
  reachable e0 l -> spl_or_t22 wtp ->
  let w := wrapped_mint_of e0 u wtp in let b := backpointer_of e0 w in
  (unallocated l w /\ unallocated l b) \/
  (exists m, mint_account l w wtp m /\ m_auth m = Some (authority_of e0 w) /\ a_owner (l b) = tw_id /\ a_data (l b) = DKey u).
Proof. exact together_l. Qed.
Print Assumptions C10_together.

(** C11: a wrapped mint keeps its token program, decimals, mint authority and extensions (metadata
    apart) for ever, and its extensions are the promised ones. *)
Theorem C11_configuration : forall e0 past l u wtp x m,
  history e0 past l -> spl_or_t22 wtp -> In x (l :: past) ->
  let w := wrapped_mint_of e0 u wtp in
  mint_account x w wtp m -> exists m', mint_account l w wtp m' /\ m_decimals m' = m_decimals m /\
    m_auth m = Some (authority_of e0 w) /\ m_auth m' = Some (authority_of e0 w) /\
    other_extensions m' = other_extensions m /\ promised_extensions wtp w (authority_of e0 w) (other_extensions m').
Proof. exact config_l. Qed.
Print Assumptions C11_configuration.

(** C17: wrapped tokens of a mint that never had a permanent delegate are fully backed by the tokens
    in the escrow of the mint's token program. *)
Theorem C17_backed : forall e0 past l u utp wtp,
  history e0 past l -> spl_or_t22 wtp -> spl_or_t22 utp -> a_owner (l u) = utp ->
  ever (no_permanent_delegate u) past l ->
  supply l (wrapped_mint_of e0 u wtp) <= escrowed e0 l u utp wtp /\
  supply l (wrapped_mint_of e0 u wtp) <= balance l (escrow_of e0 u utp wtp).
Proof. exact backed_l. Qed.
Print Assumptions C17_backed.
(** Even while the unwrapped mint does not exist (a Token-2022 mint can be closed). *)
Theorem C17_backed_always : forall e0 past l u wtp,
  history e0 past l -> spl_or_t22 wtp -> ever (no_permanent_delegate u) past l ->
  supply l (wrapped_mint_of e0 u wtp) <= escrowed e0 l u spl_token_id wtp + escrowed e0 l u t22_id wtp.
Proof. exact history_backing. Qed.
Print Assumptions C17_backed_always.

(** C18: a step that takes tokens out of an escrow is an Unwrap of that very pair, for as many tokens,
    and burns as many wrapped ones. *)
Theorem C18_payout : forall e0 a l l' u utp wtp,
  reachable e0 l -> step e0 a l l' -> spl_or_t22 wtp -> spl_or_t22 utp -> no_permanent_delegate u l ->
  escrowed e0 l' u utp wtp < escrowed e0 l u utp wtp ->
  exists n, is_unwrap e0 a u wtp utp n /\ escrowed e0 l u utp wtp = escrowed e0 l' u utp wtp + n /\
    supply l (wrapped_mint_of e0 u wtp) = supply l' (wrapped_mint_of e0 u wtp) + n.
Proof. exact payout_l. Qed.
Print Assumptions C18_payout.

(** C35: a step that issues wrapped tokens is a Wrap of that very pair, and puts at least as many
    tokens into the escrow. *)
Theorem C35_issue : forall e0 a l l' u wtp,
  reachable e0 l -> step e0 a l l' -> spl_or_t22 wtp -> no_permanent_delegate u l ->
  supply l (wrapped_mint_of e0 u wtp) < supply l' (wrapped_mint_of e0 u wtp) ->
  exists utp n, is_wrap e0 a u wtp utp n /\ spl_or_t22 utp /\
    supply l' (wrapped_mint_of e0 u wtp) - supply l (wrapped_mint_of e0 u wtp) <= n /\
    supply l' (wrapped_mint_of e0 u wtp) - supply l (wrapped_mint_of e0 u wtp) <= escrowed e0 l' u utp wtp - escrowed e0 l u utp wtp.
Proof. exact issue_l. Qed.
Print Assumptions C35_issue.

(** C30: a canonical pointer changes only by SetCanonicalPointer for its mint, signed by the mint's
    current authority, and to the value given there. *)
Theorem C30_pointer : forall e0 a l l' u,
  reachable e0 l -> step e0 a l l' ->
  let p := canonical_pointer_of e0 u in
  a_data (l' p) <> a_data (l p) \/ a_owner (l' p) <> a_owner (l p) ->
  exists v, sets_pointer e0 a l u v /\ a_data (l' p) = DKey v /\ a_owner (l' p) = tw_id.
Proof. exact pointer_l. Qed.
Print Assumptions C30_pointer.
Theorem C30_state : forall e0 l u, reachable e0 l -> let p := canonical_pointer_of e0 u in
  unallocated l p \/ exists v, a_owner (l p) = tw_id /\ a_data (l p) = DKey v.
Proof. exact pointer_state_l. Qed.
Print Assumptions C30_state.

(** ** The hypotheses are met: a history from genesis (DemoHist.v) in which a mint is created,
    wrapped, tokens are wrapped, unwrapped and sent on. *)
Example C17_nonvacuous : history demo_env (past_of story) (now_of story) /\ ever (no_permanent_delegate d_u) (past_of story) (now_of story) /\
  a_owner (now_of story d_u) = spl_token_id /\ supply (now_of story) (d_w t22_id) = 200 /\
  escrowed demo_env (now_of story) d_u spl_token_id t22_id = 200.
Proof.
  split; [apply played_history; vm_compute; reflexivity|]. split; [exact story_no_pd|]. vm_compute. auto.
Qed.
(** In the middle of that history the wrapped mint exists, so C09 and C11 apply. *)
Example C09_nonvacuous : exists x m, In x (past_of story) /\ ~ unallocated x (d_w t22_id) /\ mint_account x (d_w t22_id) t22_id m /\
  m_decimals m = 6 /\ supply x (d_w t22_id) = 300.
Proof.
  exists (nth 1 (past_of story) g0). eexists. split; [apply nth_In; vm_compute; lia|].
  split; [intros [_ Q]; vm_compute in Q; discriminate|]. split; [split; [vm_compute; reflexivity|split; vm_compute; reflexivity]|].
  vm_compute. auto.
Qed.
Lemma last_step cs c : playable (cs ++ [c]) = true -> reachable demo_env (now_of cs) /\ next (now_of cs) c = Some (now_of (cs ++ [c])).
Proof.
  assert (G : forall cs past l past' l', play (cs ++ [c]) past l = Some (past', l') ->
     exists p1 l1, play cs past l = Some (p1, l1) /\ next l1 c = Some l').
  { clear cs. induction cs as [|d r IH]; cbn; intros past l past' l' H.
    - destruct (next l c) as [l1|] eqn:E; [|discriminate]. inversion H; subst. exists past, l. auto.
    - destruct (next l d) as [l1|]; [|discriminate]. exact (IH _ _ _ _ H). }
  unfold playable, now_of, played. destruct (play (cs ++ [c]) [] g0) as [[p l]|] eqn:E; [|discriminate]. intros _.
  destruct (G _ _ _ _ _ E) as (p1 & l1 & E1 & N). rewrite E1. cbn. split; [|exact N].
  exists p1. exact (play_history cs _ _ _ _ (h_genesis _ _ g0_genesis) E1).
Qed.
Definition wrapped_part : list cmd := setup ++ [CTw (i_wrap 300)].
Example C18_nonvacuous : exists a l', reachable demo_env (now_of wrapped_part) /\ step demo_env a (now_of wrapped_part) l' /\
  no_permanent_delegate d_u (now_of wrapped_part) /\
  escrowed demo_env (now_of wrapped_part) d_u spl_token_id t22_id = 300 /\ escrowed demo_env l' d_u spl_token_id t22_id = 200.
Proof.
  destruct (last_step wrapped_part (CTw (i_unwrap 100))) as [R N]; [vm_compute; reflexivity|].
  destruct (next_step _ _ _ N) as [a S]. exists a, (now_of (wrapped_part ++ [CTw (i_unwrap 100)])).
  split; [exact R|]. split; [exact S|]. split; [|vm_compute; auto].
  intros m (O & _). exfalso. vm_compute in O. discriminate.
Qed.
Example C35_nonvacuous : exists a l', reachable demo_env (now_of setup) /\ step demo_env a (now_of setup) l' /\
  supply (now_of setup) (d_w t22_id) = 0 /\ supply l' (d_w t22_id) = 300.
Proof.
  destruct (last_step setup (CTw (i_wrap 300))) as [R N]; [vm_compute; reflexivity|].
  destruct (next_step _ _ _ N) as [a S]. exists a, (now_of (setup ++ [CTw (i_wrap 300)])).
  split; [exact R|]. split; [exact S|]. vm_compute. auto.
Qed.
Definition fund_pointer : cmd := CFund (canonical_pointer_of demo_env d_u) 4000.
Example C30_nonvacuous : exists a l', reachable demo_env (now_of (setup ++ [fund_pointer])) /\ step demo_env a (now_of (setup ++ [fund_pointer])) l' /\
  a_data (now_of (setup ++ [fund_pointer]) (canonical_pointer_of demo_env d_u)) = DRaw [] /\
  exists v, a_data (l' (canonical_pointer_of demo_env d_u)) = DKey v.
Proof.
  destruct (last_step (setup ++ [fund_pointer]) d_pointer) as [R N]; [vm_compute; reflexivity|].
  destruct (next_step _ _ _ N) as [a S]. exists a, (now_of ((setup ++ [fund_pointer]) ++ [d_pointer])).
  split; [exact R|]. split; [exact S|]. split; [vm_compute; reflexivity|]. eexists. vm_compute. reflexivity.
Qed.
