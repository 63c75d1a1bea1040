(** * PropEscrow.v — C37, C38 (and more of C19, C22, C23, C36): escrow accounts in every reachable state. *)
From Verif Require Import Base Codec State Pda TokenProg Cpi Ata Meta Processor Builders Tac Demo Demo2 PdaProofs TokProofs ProcProofs Spec SpecLemmas WrapProofs WrapProofs2 CloseProofs HistorySpec
  InvState InvHist EscProofs SolProofs HistProofs EscLive MatchProofs UnwrapLive WrapLive DemoHist PropClose PropRedeem PropLive.

(** C37: in every reachable state the escrow address is unused, or is a token account of the right
    program and mint, controlled by the wrapped mint's authority alone: no delegate, no separate close
    authority, and no extensions but those the associated-token program gives to a new account (in
    particular no CPI guard, no memo requirement, no confidential balance). *)
Theorem C37_genuine : forall e0 l u utp wtp,
  reachable e0 l -> spl_or_t22 utp ->
  let a := authority_of e0 (wrapped_mint_of e0 u wtp) in let esc := escrow_of e0 u utp wtp in
  unallocated l esc \/
  exists t, a_owner (l esc) = utp /\ a_data (l esc) = DTok t /\ t_mint t = u /\ t_owner t = a /\ t_delegate t = None /\ t_close t = None /\
    forall ty, In ty (map acct_ext_type_of (t_exts t)) ->
      In ty [XtImmutableOwner; XtTransferFeeAmount; XtNonTransferableAccount; XtTransferHookAccount; XtPausableAccount].
Proof.
  intros e0 l u utp wtp R T a esc. pose proof (esc_settled e0 e0 l u utp wtp R T) as S. fold a esc in S.
  destruct S as [B|(O & t & D & G)]; [left; exact B|right]. pose proof G as (G1 & G2 & G3 & G4 & _). exists t.
  split; [exact O|]. split; [exact D|]. split; [exact G1|]. split; [exact G2|]. split; [exact G3|]. split; [exact G4|].
  intros ty Hty. destruct (genuine_types _ _ _ _ _ G Hty) as [X|[X|[X|[X|X]]]]; rewrite X; cbn; auto 6.
Qed.
Print Assumptions C37_genuine.

(** C37: anybody can create a missing escrow (the rent is paid by whoever funds the address): the mint
    exists and the address is unused and funded.  The new escrow is empty and healthy. *)
Lemma ata_live e p wallet mnt l m :
  token_program p -> mint_account l mnt p m -> (p = spl_token_id -> m_exts m = []) -> unallocated l (ata_of e wallet mnt p) ->
  e_rent e (tok_space (init_account_exts p m true)) <= lamports l (ata_of e wallet mnt p) ->
  exists l', ata_create e p wallet mnt l = Ok l'.
Proof.
  intros T (Om & Dm & Im) X (_ & O) R. unfold ata_create. cbv zeta. assert (N : ata_of e wallet mnt p <> mnt) by apply ata_neq_mint.
  remember (ata_of e wallet mnt p) as k eqn:Ek. clear Ek. rewrite O. cbn [pk_eqb system_id guard bind N.eqb]. rewrite Om, pk_eqb_refl. cbn [guard bind].
  rewrite Dm, unpack_mint_ok by assumption. cbn [bind]. unfold tok_init_account. rewrite upd_other by exact N. rewrite Dm, unpack_mint_ok by assumption. cbn [bind].
  rewrite Om, pk_eqb_refl, orb_true_r. cbn [guard bind]. rewrite upd_same. cbn [a_data a_lamports].
  assert (Z : all_zero (zeros (tok_space (init_account_exts p m true))) && (N.of_nat (length (zeros (tok_space (init_account_exts p m true)))) =? tok_space (init_account_exts p m true)) = true).
  { unfold zeros. rewrite repeat_length, N2Nat.id, N.eqb_refl, andb_true_r. unfold all_zero. apply forallb_forall. intros x Hx. apply repeat_spec in Hx. subst x. reflexivity. }
  rewrite Z. cbn [guard bind]. unfold lamports in R. apply N.leb_le in R. rewrite R. cbn [guard bind]. rewrite set_data_ok.
  - eexists. reflexivity.
  - unfold is_wr. cbn. rewrite pk_eqb_refl. reflexivity.
  - rewrite upd_same. reflexivity.
Qed.
Theorem C37_creatable : forall e0 e l u utp wtp mu,
  reachable e0 l -> same_curve e0 e -> spl_or_t22 utp -> mint_account l u utp mu ->
  let a := authority_of e (wrapped_mint_of e u wtp) in let esc := escrow_of e u utp wtp in
  unallocated l esc -> e_rent e (tok_space (init_account_exts utp mu true)) <= lamports l esc ->
  exists l' t, ata_create e utp a u l = Ok l' /\ a_owner (l' esc) = utp /\ a_data (l' esc) = DTok t /\ t_mint t = u /\ t_owner t = a /\
    (utp = t22_id -> healthy mu t) /\ (~ native_mint u -> t_amount t = 0).
Proof.
  intros e0 e l u utp wtp mu R C T M a esc Un Fu.
  assert (X : utp = spl_token_id -> m_exts mu = []).
  { destruct R as [past H]. pose proof (history_inv _ _ _ H) as I. destruct M as (O & D & _). intro E. apply (spl_extless e0 l u mu I); [congruence|exact D]. }
  destruct (ata_live e utp a u l mu T M X Un Fu) as [l' H]. exists l'.
  destruct (ata_created _ _ _ _ _ _ H) as (_ & m & t & Um & O & D & A1 & A2 & _ & _ & A5 & _ & A6 & _).
  assert (m = mu). { destruct M as (_ & Dm & Im). rewrite Dm, unpack_mint_ok in Um by assumption. congruence. } subst m.
  exists t. split; [exact H|]. split; [exact O|]. split; [exact D|]. split; [exact A1|]. split; [exact A2|]. split.
  - intros E. subst utp. apply fresh_healthy_l. exact A5.
  - intro N. destruct (is_native_mint utp u) eqn:Q; [exfalso; exact (N (native_mint_b _ _ Q))|exact A6].
Qed.
Print Assumptions C37_creatable.

(** C38: if the unwrapped mint never had a close authority, an existing escrow always fits its mint: the
    mint is alive and the escrow carries exactly the extensions the mint demands.  (Escrows of SPL Token
    mints have no extensions at all.) *)
Lemma fits_healthy m t : map acct_ext_type_of (t_exts t) = map acct_ext_type_of (init_account_exts t22_id m true) -> healthy m t.
Proof. intros E ty. rewrite E. exact (fresh_healthy_l m (mkTok (t_mint t) (t_owner t) 0 None 0 Initialized None None (init_account_exts t22_id m true)) eq_refl ty). Qed.
Theorem C38_fits : forall e0 past l u wtp t,
  history e0 past l -> ever (uncloseable u) past l ->
  a_data (l (escrow_of e0 u t22_id wtp)) = DTok t ->
  exists m, mint_account l u t22_id m /\ healthy m t.
Proof.
  intros e0 past l u wtp t H EV D. pose proof (history_fits _ _ _ _ H EV) as F. unfold escrow_of, escrow_for in D.
  destruct (ata_key_of e0 (authority_for e0 (wrapped_mint_for e0 u wtp tw_id) tw_id) u t22_id) as [b Eb]. rewrite Eb in D.
  destruct (F _ b t (is_tw_pda_authority _ _) D) as (m & M & _ & E). exists m. split; [exact M|exact (fits_healthy _ _ E)].
Qed.
Print Assumptions C38_fits.

(** C38: so CloseStuckEscrow can never succeed for such a mint. *)
Theorem C38_never_closed : forall e0 e past l l' accounts esc d u w a p,
  history e0 past l -> ever (uncloseable u) past l -> same_curve e0 e ->
  keys_are accounts [esc; d; u; w; a; p] -> succeeds e accounts CloseStuckEscrow l l' -> False.
Proof.
  intros e0 e past l l' accounts esc d u w a p H EV C K S.
  destruct (C22_close _ _ _ _ _ _ _ _ _ _ K S) as ((_ & _ & Ee) & _ & (mu & te & M & Te & _ & _ & _ & NH) & _).
  pose proof (history_inv _ _ _ H) as I. destruct M as (Om & Dm & Im). destruct Te as (Oe & De & Se).
  pose proof De as De'. rewrite Ee in De'. rewrite <- (escrow_of_curve e0 e u t22_id (a_owner (l w)) C) in De'.
  destruct (C38_fits _ _ _ _ _ _ H EV De') as (m & (_ & Dm' & _) & Hh). assert (m = mu) by (clear -Dm Dm'; congruence). subst m.
  apply NH; [| |exact Hh].
  - assert (T : token_program (a_owner (l u))) by (rewrite Om; right; reflexivity). destruct (inv_mint _ _ _ _ I T Dm) as (_ & _ & X & _). exact X.
  - assert (T : token_program (a_owner (l esc))) by (rewrite Oe; right; reflexivity). destruct (inv_tok _ _ _ _ I T De) as (X & _). exact X.
Qed.
Print Assumptions C38_never_closed.

(** ** Stale escrows *)
(** An escrow created when the mint was non-transferable is useless, for ever: nothing can be unwrapped from it
    (whatever the mint is now). *)
Lemma transfer_not_nt e p cpi ms src mnt dst auth signers amount dec expf l l' s :
  tok_transfer_checked e p cpi ms src mnt dst auth signers amount dec expf l = Ok l' -> a_data (l src) = DTok s ->
  ~ In XtNonTransferableAccount (map acct_ext_type_of (t_exts s)).
Proof.
  intros H D I. unfold tok_transfer_checked in H. apply bind_ok in H; destruct H as [s0 [Hs H]].
  apply bind_ok in H; destruct H as [? [_ H]]. apply bind_ok in H; destruct H as [? [_ H]]. apply bind_ok in H; destruct H as [? [Hnt _]].
  apply guard_ok, negb_true_iff in Hnt. apply unpack_tok_inv in Hs. destruct Hs as (D' & _). assert (s0 = s) by congruence. subst s0.
  unfold has_acct_ext in Hnt. apply in_map_iff in I. destruct I as (y & Ey & Hy).
  assert (Q : existsb (fun e => acct_ext_type_eqb XtNonTransferableAccount (acct_ext_type_of e)) (t_exts s) = true); [|rewrite Q in Hnt; discriminate Hnt].
  apply existsb_exists. exists y. split; [exact Hy|]. rewrite Ey. reflexivity.
Qed.
Theorem C38_no_exit : forall e accounts n l l' esc r a u wtp utp s w ta t,
  keys_are accounts [esc; r; a; u; wtp; utp; s; w; ta] ->
  a_data (l esc) = DTok t -> In XtNonTransferableAccount (map acct_ext_type_of (t_exts t)) ->
  n < two64 -> succeeds e accounts (Unwrap n) l l' -> False.
Proof.
  intros e accounts n l l' esc r a u wtp utp s w ta t K D NT Lt S.
  eapply unwrap_inv in S; [|eassumption|eassumption].
  destruct S
    as (_ & _ & _ & _ & _ & _ & msk & msb & l1 & um & extra & ms & _ & _ & Hb & _ & _ & _ & Ht).
  apply burn_inv in Hb. destruct Hb as (ts & m & s1 & Us & Um & _ & _ & _ & _ & Au & _ & Os & _ & Ne & _ & _ & E).
  apply unpack_tok_inv in Us. destruct Us as (Ds & _). apply unpack_mint_inv in Um. destruct Um as (Dm & _).
  assert (Nw : esc <> w) by (intros ->; congruence).
  destruct (pk_dec esc s) as [->|Ns].
  - assert (Es : t_exts s1 = t_exts ts) by (destruct Au as [[_ ->]|(_ & _ & Au)]; [reflexivity|apply (authorize_debit_fields _ _ _ _ _ _ _ _ _ _ _ Au)]).
    assert (ts = t) by congruence. subst ts.
    assert (D1 : a_data (l1 s) = DTok (set_amount (t_amount s1 - n) s1)) by (rewrite E, upd_other, upd_same by congruence; reflexivity).
    apply (transfer_not_nt _ _ _ _ _ _ _ _ _ _ _ _ _ _ _ Ht D1). cbn. rewrite Es. exact NT.
  - assert (D1 : a_data (l1 esc) = DTok t) by (rewrite E, !upd_other by congruence; exact D).
    exact (transfer_not_nt _ _ _ _ _ _ _ _ _ _ _ _ _ _ _ Ht D1 NT).
Qed.
Print Assumptions C38_no_exit.

(** C38: tokens in such an escrow never come out again, whatever anybody does (unless the mint gets a permanent
    delegate): it keeps the mark, and its balance never falls. *)
Lemma locked_step e0 past a l l' u wtp t :
  history e0 past l -> step e0 a l l' -> spl_or_t22 wtp -> no_permanent_delegate u l ->
  a_data (l (escrow_of e0 u t22_id wtp)) = DTok t -> In XtNonTransferableAccount (map acct_ext_type_of (t_exts t)) -> 0 < t_amount t ->
  exists t', a_data (l' (escrow_of e0 u t22_id wtp)) = DTok t' /\ In XtNonTransferableAccount (map acct_ext_type_of (t_exts t')) /\ t_amount t <= t_amount t'.
Proof.
  intros H S Tw NP D NT Pos. assert (R : reachable e0 l) by (exists past; exact H). assert (Tt : token_program t22_id) by (right; reflexivity).
  destruct (settled_tok _ _ _ _ _ (esc_settled e0 e0 l u t22_id wtp R Tt) D) as (O & G1 & G2 & _).
  assert (E : escrowed e0 l u t22_id wtp = t_amount t).
  { unfold escrowed. cbv zeta. rewrite D, O, G1, G2, !pk_eqb_refl. reflexivity. }
  assert (Le : t_amount t <= escrowed e0 l' u t22_id wtp).
  { destruct (N.le_gt_cases (t_amount t) (escrowed e0 l' u t22_id wtp)) as [X|X]; [exact X|exfalso]. rewrite <- E in X.
    destruct (payout_l e0 a l l' u t22_id wtp R S Tw Tt NP X) as (n & (e & accounts & input & recipient & source & authority & -> & Ei & K) & _).
    assert (Rn : runs e accounts input l l') by (clear -S; inversion S; assumption). unfold runs, process_instruction in Rn. rewrite Ei in Rn. cbn [bind process_instr map_instr] in Rn.
    destruct K as [rest K].
    destruct (process_unwrap_inv _ (mkCtx tw_id accounts) _ _ _ _ _ _ _ _ _ _ _ _ _ K eq_refl Rn)
      as (_ & _ & _ & Ew & _ & _ & msk & msb & l1 & um & extra & ms & _ & _ & Hb & _ & _ & _ & Ht).
    apply burn_inv in Hb. destruct Hb as (ts & m & s1 & Us & Um & _ & _ & _ & Ms & Au & _ & Os & _ & Ne & _ & _ & El).
    apply unpack_tok_inv in Us. destruct Us as (Ds & _). apply unpack_mint_inv in Um. destruct Um as (Dm & _).
    remember (escrow_of e0 u t22_id wtp) as esc eqn:Ee. remember (wrapped_mint_of e0 u wtp) as w eqn:Eww. clear Ee.
    assert (Nw : esc <> w) by (clear -D Dm; intros ->; congruence).
    destruct (pk_dec esc source) as [Q|Ns].
    - subst source. assert (Es : t_exts s1 = t_exts ts) by (destruct Au as [[_ ->]|(_ & _ & Au)]; [reflexivity|apply (authorize_debit_fields _ _ _ _ _ _ _ _ _ _ _ Au)]).
      assert (ts = t) by (clear -D Ds; congruence). subst ts.
      assert (D1 : a_data (l1 esc) = DTok (set_amount (t_amount s1 - n) s1)) by (rewrite El, upd_other by (clear -Nw; congruence); rewrite upd_same; reflexivity).
      apply (transfer_not_nt _ _ _ _ _ _ _ _ _ _ _ _ _ _ _ Ht D1). cbn. rewrite Es. exact NT.
    - assert (D1 : a_data (l1 esc) = DTok t) by (rewrite El; rewrite !upd_other by (clear -Nw Ns; congruence); exact D).
      exact (transfer_not_nt _ _ _ _ _ _ _ _ _ _ _ _ _ _ _ Ht D1 NT). }
  destruct (escrowed_inv e0 l' u t22_id wtp) as (t' & D' & _ & _ & _ & Et); [lia|]. exists t'. split; [exact D'|]. split; [|lia].
  unfold escrow_of, escrow_for in D, D', O. destruct (ata_key_of e0 (authority_for e0 (wrapped_mint_for e0 u wtp tw_id) tw_id) u t22_id) as [b Eb]. rewrite Eb in D, D', O.
  assert (P : is_tw_pda (authority_for e0 (wrapped_mint_for e0 u wtp tw_id) tw_id) = true) by apply is_tw_pda_authority.
  destruct (step_kept _ _ _ _ (history_inv _ _ _ H) (history_esc _ _ _ H) S) as [[_ K]|(e & wallet & mnt & X)].
  - destruct (K _ _ b t' P D') as (t0 & D0 & Ex). rewrite D in D0. inversion D0; subst t0. rewrite Ex. exact NT.
  - destruct (ata_created _ _ _ _ _ _ X) as (Lo & _). pose proof (ata_unused _ _ _ _ _ _ X) as Ou. rewrite Lo in D'.
    + rewrite D in D'. inversion D'; subst t'. exact NT.
    + intro Q. rewrite Q, Ou in O. discriminate O.
Qed.
Theorem C38_locked : forall e0 past l u wtp x t,
  history e0 past l -> ever (no_permanent_delegate u) past l -> spl_or_t22 wtp -> In x (l :: past) ->
  a_data (x (escrow_of e0 u t22_id wtp)) = DTok t -> In XtNonTransferableAccount (map acct_ext_type_of (t_exts t)) -> 0 < t_amount t ->
  exists t', a_data (l (escrow_of e0 u t22_id wtp)) = DTok t' /\ In XtNonTransferableAccount (map acct_ext_type_of (t_exts t')) /\ t_amount t <= t_amount t'.
Proof.
  intros e0 past l u wtp x t H. induction H as [l G|past l a l' H IH S]; intros EV Tw Hx D NT Pos.
  - destruct Hx as [<-|[]]. exists t. split; [exact D|]. split; [exact NT|lia].
  - destruct Hx as [<-|Hx]; [exists t; split; [exact D|split; [exact NT|lia]]|].
    assert (EV0 : ever (no_permanent_delegate u) past l) by (intros y Hy; apply EV; right; exact Hy).
    destruct (IH EV0 Tw Hx D NT Pos) as (t1 & D1 & NT1 & L1).
    assert (Pos1 : 0 < t_amount t1) by lia.
    destruct (locked_step e0 past a l l' u wtp t1 H S Tw (EV0 l (or_introl eq_refl)) D1 NT1 Pos1) as (t2 & D2 & NT2 & L2).
    exists t2. split; [exact D2|]. split; [exact NT2|lia].
Qed.
Print Assumptions C38_locked.

(** ** C38: the trap is real.  A history: a non-transferable Token-2022 mint with a close authority (still without
    supply) is wrapped and its escrow created; the mint is closed and re-created at the same address as an
    ordinary mint; Alice, who sees an ordinary mint, wraps 40 tokens.  Unwrap fails, whatever the recipient and
    amount; CloseStuckEscrow fails too, and the 40 tokens never leave the escrow ([C38_locked]). *)
Definition old_exts : list mint_ext := [MxNonTransferable; MxMintCloseAuthority (Some d_mintauth)].
Definition trap_setup : list cmd :=
  [ CFund d_alice 5000; CFund (d_w spl_token_id) 4000; CFund (d_b spl_token_id) 4000; CFund (d_esc t22_id spl_token_id) 5000;
    CAlloc d_u (mint_space old_exts) 9000 t22_id;
    CTok t22_id [meta_w d_u false] (TiInitExt (MxMintCloseAuthority (Some d_mintauth)));
    CTok t22_id [meta_w d_u false] (TiInitExt MxNonTransferable);
    CTok t22_id [meta_w d_u false] (TiInitializeMint2 6 d_mintauth None);
    CTw x_create; CAta t22_id (d_a spl_token_id) d_u;
    CTok t22_id [meta_w d_u false; meta_w d_alice false; meta_r d_mintauth true] TiCloseAccount;
    CAlloc d_u 82 9000 t22_id;
    CTok t22_id [meta_w d_u false] (TiInitializeMint2 6 d_mintauth None);
    CAlloc d_alice_u 165 5000 t22_id; CAlloc d_alice_w 165 5000 spl_token_id;
    CTok t22_id [meta_w d_alice_u false; meta_r d_u false] (TiInitializeAccount d_alice false);
    CTok spl_token_id [meta_w d_alice_w false; meta_r (d_w spl_token_id) false] (TiInitializeAccount d_alice false);
    CTok t22_id [meta_w d_u false; meta_w d_alice_u false; meta_r d_mintauth true] (TiMintTo 1000) ].
Definition trap : list cmd := trap_setup ++ [CTw (x_wrap 40)].
Example trap_playable : playable trap = true.
Proof. vm_compute. reflexivity. Qed.

Lemma data_tok_balance l k t : a_data (l k) = DTok t -> balance l k = t_amount t.
Proof. intro D. unfold balance. rewrite D. reflexivity. Qed.
Theorem C38_stale_escrow_refuted : exists past l m ta,
  history demo_env past l /\ ever (no_permanent_delegate d_u) past l /\
  mint_account l d_u t22_id m /\ m_exts m = [] /\
  holder l spl_token_id (d_w spl_token_id) d_alice_w d_alice ta /\ t_amount ta = 40 /\ supply l (d_w spl_token_id) = 40 /\ balance l (d_esc t22_id spl_token_id) = 40 /\
  (forall e accounts n r s auth l', n < two64 ->
     keys_are accounts [d_esc t22_id spl_token_id; r; d_a spl_token_id; d_u; spl_token_id; t22_id; s; d_w spl_token_id; auth] ->
     ~ succeeds e accounts (Unwrap n) l l') /\
  (forall e accounts d p l', keys_are accounts [d_esc t22_id spl_token_id; d; d_u; d_w spl_token_id; d_a spl_token_id; p] ->
     ~ succeeds e accounts CloseStuckEscrow l l') /\
  (forall later l', history demo_env (later ++ l :: past) l' -> ever (no_permanent_delegate d_u) (later ++ l :: past) l' -> 40 <= balance l' (d_esc t22_id spl_token_id)).
Proof.
  exists (past_of trap), (now_of trap). eexists. eexists.
  assert (H : history demo_env (past_of trap) (now_of trap)) by (apply played_history; vm_compute; reflexivity).
  assert (NPD : ever (no_permanent_delegate d_u) (past_of trap) (now_of trap)).
  { assert (Q : forallb (fun x => match a_data (x d_u) with DMint m => match ext_permanent_delegate m with None => true | Some _ => false end | _ => true end)
                (now_of trap :: past_of trap) = true) by (vm_compute; reflexivity).
    rewrite forallb_forall in Q. intros x Hx m (_ & D & _). specialize (Q x Hx). rewrite D in Q. destruct (ext_permanent_delegate m); [discriminate Q|reflexivity]. }
  split; [exact H|]. split; [exact NPD|].
  split; [split; [vm_compute; reflexivity|split; [vm_compute; reflexivity|vm_compute; reflexivity]]|]. split; [reflexivity|].
  split; [split; [split; [vm_compute; reflexivity|split; [vm_compute; reflexivity|vm_compute; discriminate]]|]; split; [vm_compute; reflexivity|split; [reflexivity|split; [reflexivity|split; [discriminate|reflexivity]]]]|].
  split; [reflexivity|]. split; [vm_compute; reflexivity|]. split; [vm_compute; reflexivity|].
  assert (D : exists t, a_data (now_of trap (d_esc t22_id spl_token_id)) = DTok t /\ In XtNonTransferableAccount (map acct_ext_type_of (t_exts t)) /\ t_amount t = 40).
  { eexists. split; [vm_compute; reflexivity|]. split; [cbn; auto|reflexivity]. }
  destruct D as (t & D & NT & Am). clear H.
  split; [|split].
  - intros e accounts n r s ta l' Lt K S. exact (C38_no_exit _ _ _ _ _ _ _ _ _ _ _ _ _ _ _ K D NT Lt S).
  - intros e accounts d p l' K S. destruct (C22_close _ _ _ _ _ _ _ _ _ _ K S) as (_ & _ & (mu & te & _ & (_ & De & _) & _ & Z & _) & _).
    rewrite D in De. inversion De; subst te. rewrite Am in Z. discriminate Z.
  - intros later l' H' EV. assert (Hx : In (now_of trap) (l' :: later ++ now_of trap :: past_of trap)) by (right; apply in_or_app; right; left; reflexivity).
    assert (Tw : spl_or_t22 spl_token_id) by (left; reflexivity). assert (Pos : 0 < t_amount t) by (rewrite Am; reflexivity).
    destruct (C38_locked demo_env _ l' d_u spl_token_id _ t H' EV Tw Hx D NT Pos) as (t' & D' & _ & Le). 
    change (a_data (l' (d_esc t22_id spl_token_id)) = DTok t') in D'. rewrite (data_tok_balance _ _ _ D'). lia.
Qed.
Print Assumptions C38_stale_escrow_refuted.

(** ** The hypotheses are met. *)
(** A Token-2022 mint with a transfer fee and without close authority, wrapped as SPL Token; 40 tokens (less the
    fee of 1) are wrapped. *)
Definition fee_story : list cmd :=
  [ CFund d_alice 5000; CFund (d_w spl_token_id) 4000; CFund (d_b spl_token_id) 4000;
    CAlloc d_u (mint_space [MxTransferFee d_fees]) 9000 t22_id;
    CTok t22_id [meta_w d_u false] (TiInitExt (MxTransferFee d_fees));
    CTok t22_id [meta_w d_u false] (TiInitializeMint2 6 d_mintauth None);
    CTw x_create; CFund (d_esc t22_id spl_token_id) 5000 ].
Definition fee_story2 : list cmd :=
  [ CAta t22_id (d_a spl_token_id) d_u;
    CAlloc d_alice_u (tok_space [AxTransferFeeAmount 0]) 5000 t22_id; CAlloc d_alice_w 165 5000 spl_token_id;
    CTok t22_id [meta_w d_alice_u false; meta_r d_u false] (TiInitializeAccount d_alice false);
    CTok spl_token_id [meta_w d_alice_w false; meta_r (d_w spl_token_id) false] (TiInitializeAccount d_alice false);
    CTok t22_id [meta_w d_u false; meta_w d_alice_u false; meta_r d_mintauth true] (TiMintTo 1000);
    CTw (x_wrap 40) ].
Lemma uncloseable_b u past l :
  forallb (fun x => match a_data (x u) with DMint m => match ext_close_authority m with None => true | Some _ => false end | _ => true end) (l :: past) = true ->
  ever (uncloseable u) past l.
Proof.
  intro H. rewrite forallb_forall in H. intros x Hx. specialize (H x Hx). intros m (_ & D & _). rewrite D in H. destruct (ext_close_authority m); [discriminate H|reflexivity].
Qed.
Example C37_nonvacuous :
  (reachable demo_env (now_of story) /\ exists t, a_data (now_of story (d_esc spl_token_id t22_id)) = DTok t /\ t_amount t = 200) /\
  (exists mu, reachable demo_env (now_of fee_story) /\ mint_account (now_of fee_story) d_u t22_id mu /\ m_exts mu = [MxTransferFee d_fees] /\
     unallocated (now_of fee_story) (d_esc t22_id spl_token_id) /\
     e_rent demo_env (tok_space (init_account_exts t22_id mu true)) <= lamports (now_of fee_story) (d_esc t22_id spl_token_id)).
Proof.
  split; [split; [exists (past_of story); apply played_history; exact (proj1 story_playable)|eexists; split; [vm_compute; reflexivity|reflexivity]]|].
  eexists. split; [exists (past_of fee_story); apply played_history; vm_compute; reflexivity|].
  split; [split; [vm_compute; reflexivity|split; [vm_compute; reflexivity|vm_compute; reflexivity]]|]. split; [reflexivity|].
  split; [split; vm_compute; reflexivity|vm_compute; discriminate].
Qed.
Example C38_nonvacuous : exists past l t,
  history demo_env past l /\ ever (uncloseable d_u) past l /\ a_data (l (escrow_of demo_env d_u t22_id spl_token_id)) = DTok t /\ t_amount t = 39 /\
  In XtTransferFeeAmount (map acct_ext_type_of (t_exts t)).
Proof.
  exists (past_of (fee_story ++ fee_story2)), (now_of (fee_story ++ fee_story2)). eexists.
  split; [apply played_history; vm_compute; reflexivity|]. split; [apply uncloseable_b; vm_compute; reflexivity|].
  split; [vm_compute; reflexivity|]. split; [reflexivity|cbn; auto].
Qed.
