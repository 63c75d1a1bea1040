(** * PropReach.v — more about reachable states: C08, C17, C19, C22, C23, C24, C25, C36 with the hypotheses that
    hold in every reachable state removed. *)
From Verif Require Import Base Codec State Pda TokenProg Cpi Ata Meta Processor Builders Tac Demo Demo2 PdaProofs TokProofs ProcProofs Spec SpecLemmas WrapProofs WrapProofs2 CloseProofs HistorySpec
  InvState InvHist EscProofs SolProofs HistProofs EscLive MatchProofs UnwrapLive WrapLive DemoHist PropClose PropSync PropHistory PropRedeem PropLive PropEscrow.

(** ** CloseStuckEscrow *)
Lemma reach_distinct_mint e0 l k p m : reachable e0 l -> spl_or_t22 p -> mint_account l k p m -> distinct_mint_exts m.
Proof.
  intros [past H] T (O & D & _). pose proof (history_inv _ _ _ H) as I. assert (T' : token_program (a_owner (l k))) by (rewrite O; exact T).
  destruct (inv_mint _ _ _ _ I T' D) as (_ & _ & X & _). exact X.
Qed.
Lemma reach_distinct_acct e0 l k p t : reachable e0 l -> spl_or_t22 p -> a_owner (l k) = p -> a_data (l k) = DTok t -> distinct_acct_exts t.
Proof.
  intros [past H] T O D. pose proof (history_inv _ _ _ H) as I. assert (T' : token_program (a_owner (l k))) by (rewrite O; exact T).
  destruct (inv_tok _ _ _ _ I T' D) as (X & _). exact X.
Qed.
Lemma close_withheld prog cpi ms acc dst auth signers l l' t :
  a_data (l acc) = DTok t -> tok_close prog cpi ms acc dst auth signers l = Ok l' -> withheld_of (t_exts t) = 0.
Proof.
  intros D H. unfold tok_close in H. apply bind_ok in H; destruct H as (? & _ & H). rewrite D in H. apply bind_ok in H; destruct H as (t0 & Ht & H).
  apply unpack_tok_inv in Ht. destruct Ht as (E & _). inversion E; subst t0.
  apply bind_ok in H; destruct H as (? & _ & H). apply bind_ok in H; destruct H as (? & _ & H). apply bind_ok in H; destruct H as (? & _ & H).
  apply bind_ok in H; destruct H as (? & G & _). apply guard_ok, N.eqb_eq in G. exact G.
Qed.
Lemma genuine_no_conf w mnt p t : genuine w mnt p t -> confidential_of (t_exts t) = 0.
Proof.
  intro G. assert (X : forall x, In x (map acct_ext_type_of (t_exts t)) -> x <> XtConfidentialTransferAccount).
  { intros x Hx. destruct (genuine_types _ _ _ _ _ G Hx) as [->|[->|[->|[->| ->]]]]; discriminate. }
  unfold confidential_of. clear G. induction (t_exts t) as [|y r IH]; [reflexivity|]. cbn in X |- *.
  destruct y; try (apply IH; intros x Hx; apply X; right; exact Hx). exfalso. apply (X XtConfidentialTransferAccount); [left; reflexivity|reflexivity].
Qed.
Lemma wrapped_owner e0 l u wtp : reachable e0 l -> spl_or_t22 wtp -> ~ unallocated l (wrapped_mint_of e0 u wtp) -> a_owner (l (wrapped_mint_of e0 u wtp)) = wtp.
Proof.
  intros [past H] T N. pose proof (history_inv _ _ _ H) as I. destruct (inv_wrapped _ _ u wtp I) as [B|(_ & O & _)]; [|exact O].
  exfalso. apply N. destruct B as [B1 B2]. split; assumption.
Qed.
Lemma close_exact_aux e0 e l accounts more d u wtp w a esc :
  reachable e0 l -> same_curve e0 e -> spl_or_t22 wtp ->
  w = wrapped_mint_of e u wtp -> a = authority_of e w -> esc = escrow_of e u t22_id wtp -> ~ unallocated l w -> close_addresses_exist e u wtp ->
  map i_key accounts = [esc; d; u; w; a; t22_id] ++ more -> writable accounts esc -> writable accounts d -> d <> esc -> d <> u ->
  ((exists l', succeeds e accounts CloseStuckEscrow l l') <->
   exists mu te, mint_account l u t22_id mu /\ token_account l esc t22_id te /\ t_amount te = 0 /\ t_state te = Initialized /\ withheld te = 0 /\ ~ healthy mu te).
Proof.
  intros R C T Ew Ea Ee Nu Ad K We Wd Nde Ndu. assert (T22 : spl_or_t22 t22_id) by (right; reflexivity).
  assert (Ow : a_owner (l w) = wtp).
  { rewrite Ew in Nu |- *. rewrite <- (wrapped_mint_of_curve e0 e u wtp C) in Nu |- *. exact (wrapped_owner e0 l u wtp R T Nu). }
  assert (Se : settled a u t22_id (l esc)) by (rewrite Ea, Ew, Ee; exact (esc_settled e0 e l u t22_id wtp R T22)).
  split.
  - intros [l' S]. assert (K' : keys_are accounts [esc; d; u; w; a; t22_id]) by (exists more; exact K).
    destruct (C22_close _ _ _ _ _ _ _ _ _ _ K' S) as (_ & _ & (mu & te & M & Te & _ & Am & St & NH) & _). exists mu, te.
    split; [exact M|]. split; [exact Te|]. split; [exact Am|]. split; [exact St|].
    pose proof Te as (Oe & De & _). split.
    + unfold succeeds in S. rewrite close_outcome in S.
      destruct (process_close_inv e (mkCtx tw_id accounts) l l' esc d u w a t22_id more K eq_refl S) as (_ & _ & _ & _ & _ & et & m & msc & _ & _ & _ & _ & _ & _ & _ & _ & _ & Hc).
      exact (close_withheld _ _ _ _ _ _ _ _ _ _ De Hc).
    + apply NH; [exact (reach_distinct_mint _ _ _ _ _ R T22 M)|exact (reach_distinct_acct _ _ _ _ _ R T22 Oe De)].
  - intros (mu & te & M & Te & Am & St & Wh & NH). pose proof Te as (Oe & De & _).
    destruct (settled_tok _ _ _ _ _ Se De) as (_ & G). pose proof G as (G1 & G2 & G3 & G4 & _).
    assert (Ad' : close_addresses_exist e u (a_owner (l w))) by (rewrite Ow; exact Ad).
    assert (Ew' : w = wrapped_mint_of e u (a_owner (l w))) by (rewrite Ow; exact Ew).
    assert (Ee' : esc = escrow_of e u t22_id (a_owner (l w))) by (rewrite Ow; exact Ee).
    assert (Nm : forall m, a_data (l a) <> DMultisig m).
    { intros m. destruct R as [past H]. apply (pda_not_multisig e0 l a m (history_inv _ _ _ H)). rewrite Ea. apply is_tw_pda_authority. }
    exact (C23_stuck_closable e accounts l esc d u w a more mu te K Ad' Ew' Ea Ee' M Te G2 Am St
      (reach_distinct_mint _ _ _ _ _ R T22 M) (reach_distinct_acct _ _ _ _ _ R T22 Oe De) NH We Wd Nde Ndu G4 Wh
      (genuine_no_conf _ _ _ _ G) (genuine_no_guard _ _ _ _ G) Nm).
Qed.
(** C23 (with C22), exactly: in every reachable state where the wrapped mint exists, CloseStuckEscrow succeeds if and
    only if the unwrapped mint is a Token-2022 mint and its escrow exists, is empty (also of withheld fees), is not frozen
    and does not fit the mint.  No signature is needed, and nothing else matters. *)
Theorem C23_exact : forall e0 e l accounts more d u wtp,
  reachable e0 l -> same_curve e0 e -> spl_or_t22 wtp ->
  let w := wrapped_mint_of e u wtp in let a := authority_of e w in let esc := escrow_of e u t22_id wtp in
  ~ unallocated l w -> close_addresses_exist e u wtp ->
  map i_key accounts = [esc; d; u; w; a; t22_id] ++ more -> writable accounts esc -> writable accounts d -> d <> esc -> d <> u ->
  ((exists l', succeeds e accounts CloseStuckEscrow l l') <->
   exists mu te, mint_account l u t22_id mu /\ token_account l esc t22_id te /\ t_amount te = 0 /\ t_state te = Initialized /\ withheld te = 0 /\ ~ healthy mu te).
Proof.
  intros e0 e l accounts more d u wtp R C T w a esc Nu Ad K We Wd Nde Ndu.
  exact (close_exact_aux e0 e l accounts more d u wtp w a esc R C T eq_refl eq_refl eq_refl Nu Ad K We Wd Nde Ndu).
Qed.
Print Assumptions C23_exact.
Lemma close_healthy_aux e0 e l accounts more d u wtp w a esc mu te :
  reachable e0 l -> same_curve e0 e -> spl_or_t22 wtp ->
  w = wrapped_mint_of e u wtp -> a = authority_of e w -> esc = escrow_of e u t22_id wtp -> ~ unallocated l w -> close_addresses_exist e u wtp ->
  map i_key accounts = [esc; d; u; w; a; t22_id] ++ more ->
  mint_account l u t22_id mu -> token_account l esc t22_id te -> t_amount te = 0 -> t_state te = Initialized -> healthy mu te ->
  fails e accounts CloseStuckEscrow l (ETw EscrowInGoodState).
Proof.
  intros R C T Ew Ea Ee Nu Ad K M Te Am St HH. assert (T22 : spl_or_t22 t22_id) by (right; reflexivity).
  assert (Ow : a_owner (l w) = wtp).
  { rewrite Ew in Nu |- *. rewrite <- (wrapped_mint_of_curve e0 e u wtp C) in Nu |- *. exact (wrapped_owner e0 l u wtp R T Nu). }
  assert (Se : settled a u t22_id (l esc)) by (rewrite Ea, Ew, Ee; exact (esc_settled e0 e l u t22_id wtp R T22)).
  pose proof Te as (Oe & De & _). destruct (settled_tok _ _ _ _ _ Se De) as (_ & G1 & G2 & _).
  assert (Ad' : close_addresses_exist e u (a_owner (l w))) by (rewrite Ow; exact Ad).
  assert (Ew' : w = wrapped_mint_of e u (a_owner (l w))) by (rewrite Ow; exact Ew).
  assert (Ee' : esc = escrow_of e u t22_id (a_owner (l w))) by (rewrite Ow; exact Ee).
  assert (K' : keys_are accounts [esc; d; u; w; a; t22_id]) by (exists more; exact K).
  exact (C23_healthy_refused e accounts l esc d u w a t22_id mu te K' Ad' Ew' Ea Ee' M Te G2 Am St
      (reach_distinct_mint _ _ _ _ _ R T22 M) (reach_distinct_acct _ _ _ _ _ R T22 Oe De) HH).
Qed.
(** C23: ... and if it does fit the mint, the refusal says so. *)
Theorem C23_healthy_refused_reachable : forall e0 e l accounts more d u wtp mu te,
  reachable e0 l -> same_curve e0 e -> spl_or_t22 wtp ->
  let w := wrapped_mint_of e u wtp in let a := authority_of e w in let esc := escrow_of e u t22_id wtp in
  ~ unallocated l w -> close_addresses_exist e u wtp -> map i_key accounts = [esc; d; u; w; a; t22_id] ++ more ->
  mint_account l u t22_id mu -> token_account l esc t22_id te -> t_amount te = 0 -> t_state te = Initialized -> healthy mu te ->
  fails e accounts CloseStuckEscrow l (ETw EscrowInGoodState).
Proof.
  intros e0 e l accounts more d u wtp mu te R C T w a esc Nu Ad K M Te Am St HH.
  exact (close_healthy_aux e0 e l accounts more d u wtp w a esc mu te R C T eq_refl eq_refl eq_refl Nu Ad K M Te Am St HH).
Qed.
Print Assumptions C23_healthy_refused_reachable.

(** C23, recovery: after CloseStuckEscrow the escrow address is unused again, and anybody who funds it can have a
    new, healthy escrow created there. *)
Theorem C23_recovery : forall e l l' accounts d u p w a esc,
  keys_are accounts [esc; d; u; w; a; p] -> succeeds e accounts CloseStuckEscrow l l' ->
  exists mu, mint_account l u t22_id mu /\ forall n, e_rent e (tok_space (init_account_exts t22_id mu true)) <= n ->
    exists l'' t, ata_create e t22_id a u (upd l' esc (with_lamports n (l' esc))) = Ok l'' /\
      a_owner (l'' esc) = t22_id /\ a_data (l'' esc) = DTok t /\ t_mint t = u /\ t_owner t = a /\ healthy mu t.
Proof.
  intros e l l' accounts d u p w a esc K S.
  assert (Ndu : d <> u).
  { destruct K as [more K]. unfold succeeds in S. rewrite close_outcome in S.
    destruct (process_close_inv e (mkCtx tw_id accounts) l l' esc d u w a p more K eq_refl S) as (_ & _ & _ & _ & _ & et & m & msc & _ & _ & _ & _ & _ & _ & _ & _ & N & _). exact N. }
  destruct (C22_close _ _ _ _ _ _ _ _ _ _ K S) as ((Ew & Ea & Ee) & _ & (mu & te & M & Te & _) & Le & _ & Lo).
  exists mu. split; [exact M|]. intros n Hn.
  assert (Neu : esc <> u). { intros ->. destruct M as (_ & D1 & _). destruct Te as (_ & D2 & _). rewrite D1 in D2. discriminate D2. }
  remember (upd l' esc (with_lamports n (l' esc))) as l2 eqn:E2.
  assert (M2 : mint_account l2 u t22_id mu).
  { assert (Q : l2 u = l u) by (rewrite E2, upd_other by exact Neu; apply Lo; congruence). unfold mint_account, mint_data. rewrite Q. exact M. }
  assert (U2 : unallocated l2 (ata_of e a u t22_id) /\ lamports l2 (ata_of e a u t22_id) = n).
  { assert (X : ata_of e a u t22_id = esc). { rewrite Ee. unfold escrow_of, escrow_for. rewrite Ea. rewrite Ew at 1. reflexivity. }
    rewrite X, E2. unfold unallocated, lamports. rewrite upd_same, Le. cbn. auto. }
  destruct U2 as [U2 F2].
  assert (X : t22_id = spl_token_id -> m_exts mu = []) by (intro Q; discriminate Q).
  destruct (ata_live e t22_id a u l2 mu (or_intror eq_refl) M2 X U2) as [l3 H3]; [rewrite F2; exact Hn|].
  destruct (ata_created _ _ _ _ _ _ H3) as (_ & m & t & Um & O & D & A1 & A2 & _ & _ & A5 & _).
  assert (m = mu). { destruct M2 as (_ & Dm & Im). rewrite Dm, unpack_mint_ok in Um by assumption. congruence. } subst m.
  assert (X2 : ata_of e a u t22_id = esc). { rewrite Ee. unfold escrow_of, escrow_for. rewrite Ea. rewrite Ew at 1. reflexivity. }
  rewrite X2 in O, D. exists l3, t. split; [exact H3|]. split; [exact O|]. split; [exact D|]. split; [exact A1|]. split; [exact A2|]. apply fresh_healthy_l. exact A5.
Qed.
Print Assumptions C23_recovery.
