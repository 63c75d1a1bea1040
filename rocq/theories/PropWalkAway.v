(** * PropWalkAway.v — C63: wrap, walk away, come back, unwrap.

    Whatever everybody else does in between, over any number of actions, whoever wrapped tokens (or was given
    wrapped tokens) and left them alone can exchange all of them for the unwrapped ones later. *)
From Verif Require Import Base Codec State Pda TokenProg Cpi Ata Meta Processor Tac PdaProofs TokProofs FrameProofs ProcProofs
  Spec SpecLemmas WrapProofs CreateProofs InvTok InvCons HistorySpec InvState InvTw InvHist HistProofs UnwrapLive
  PropWrap PropRedeem PropCustody Builders Demo Demo2 DemoHist.

(** Nobody with power over the token account [k] (holding [t] in state [l]) consents to anything in the course [acts]:
    not its owner, delegate or close authority, nor the freeze authority of its mint. *)
Definition left_alone (acts : list (action * ledger)) (p : pubkey) (l : ledger) (t : tokacc) : Prop :=
  idle acts p (t_owner t) /\ (forall d, t_delegate t = Some d -> idle acts p d) /\ (forall c, t_close t = Some c -> idle acts p c) /\
  (forall m f, mint_account l (t_mint t) p m -> m_freeze m = Some f -> idle acts p f).
(** [P] holds before, throughout and after the course. *)
Definition throughout (P : ledger -> Prop) (past : list ledger) (acts : list (action * ledger)) (l l' : ledger) : Prop :=
  ever P past l /\ (forall a x, In (a, x) acts -> P x) /\ P l'.

Lemma course_history e0 acts l l' past : course e0 acts l l' -> history e0 past l ->
  exists past', history e0 past' l' /\ forall x, In x past' -> In x past \/ exists a, In (a, x) acts.
Proof.
  intro C. revert past. induction C as [l|a l l1 acts l' S C IH]; intros past H; [exists past; split; [exact H|auto]|].
  destruct (IH (l :: past) (h_step _ _ _ _ _ H S)) as (past' & H' & Q). exists past'. split; [exact H'|].
  intros x Hx. destruct (Q x Hx) as [[<-|Y]|[b Y]]; [right; exists a; left; reflexivity|left; exact Y|right; exists b; right; exact Y].
Qed.
Lemma course_ever P e0 acts l l' past : course e0 acts l l' -> history e0 past l -> throughout P past acts l l' ->
  exists past', history e0 past' l' /\ ever P past' l'.
Proof.
  intros C H (A & B & D). destruct (course_history _ _ _ _ _ C H) as (past' & H' & Q). exists past'. split; [exact H'|].
  intros x [<-|Hx]; [exact D|]. destruct (Q x Hx) as [Y|[a Y]]; [apply A; right; exact Y|exact (B a x Y)].
Qed.
(** Where there are wrapped tokens, there is their mint. *)
Lemma held_mint e0 l u p k t : Inv e0 l -> spl_or_t22 p -> token_account l k p t -> t_mint t = wrapped_mint_of e0 u p -> 0 < t_amount t ->
  exists m, mint_account l (wrapped_mint_of e0 u p) p m.
Proof.
  intros I T (O & D & _) Mt Pos. destruct (inv_wrapped e0 l u p I) as [[B1 B2]|(_ & W1 & m & W2 & W3 & _)]; [|exists m; repeat split; assumption].
  exfalso. assert (ND : NoDup [k]) by (constructor; [intros []|constructor]).
  pose proof (inv_cons _ _ I p _ T (wrapped_not_native e0 u p p) [k] ND) as K.
  pose proof (hold_together_val l p (wrapped_mint_of e0 u p) [k]) as V.
  assert (HT : hold_together l p (wrapped_mint_of e0 u p) [k] = t_amount t).
  { unfold hold_together, holds. cbn [fold_right]. rewrite D, O, Mt, !pk_eqb_refl. cbn [andb]. lia. }
  assert (R : room p (wrapped_mint_of e0 u p) l (wrapped_mint_of e0 u p) = 0).
  { unfold room. rewrite B1. destruct (pk_eqb _ _); reflexivity. }
  lia.
Qed.
Lemma walk_aux e0 e past acts l l' u utp wtp accounts more signers q recipient k mu t tr w a esc :
  history e0 past l -> course e0 acts l l' -> throughout (no_permanent_delegate u) past acts l l' ->
  same_curve e0 e -> spl_or_t22 wtp -> spl_or_t22 utp ->
  w = wrapped_mint_of e u wtp -> a = authority_of e w -> esc = escrow_of e u utp wtp ->
  derivable e (wrapped_mint_seeds u wtp) tw_id -> derivable e (wrapped_mint_authority_seeds w) tw_id -> derivable e (ata_seeds a u utp) ata_id ->
  holder l wtp w k (t_owner t) t -> not_escrow e0 k -> t_owner t <> system_id -> t_owner t <> incinerator_id ->
  left_alone acts wtp l t -> (wtp = t22_id \/ forall b x, In (b, x) acts -> hooks_spare b k) ->
  0 < q -> q <= t_amount t -> q < two64 ->
  map i_key accounts = [esc; recipient; a; u; wtp; utp; k; w; t_owner t] ++ more ->
  writable accounts esc -> writable accounts recipient -> writable accounts k -> writable accounts w ->
  e_multisig e l' (t_owner t) (skipn 9 accounts) = Ok signers -> incl signers more -> owner_acts accounts l' wtp (t_owner t) signers ->
  appends_signers e accounts ->
  transferable l' utp u mu -> can_receive e l' utp u recipient mu tr -> recipient <> esc -> open_account l' esc ->
  (native_mint u -> lamports l' recipient + lamports l' esc < two64) ->
  exists l'' fee, succeeds e accounts (Unwrap q) l' l'' /\ fee_for mu (e_epoch e) q fee /\ fee <= q /\
    t_amount t <= balance l' k /\ balance l'' k + q = balance l' k /\ balance l'' recipient = balance l' recipient + (q - fee).
Proof.
  intros H C TH SC Tw Tu Ew Ea Ee D1 D2 D3 (TA & Mt & _ & St & Dl & Cg) NE N1 N2 (Lo & Ld & Lc & Lf) Sp Q0 Q1 Q2 Ek We Wr Wk Ww Ms Inc Ac Ap Tf Cr Ne Op Nat.
  assert (R : reachable e0 l) by (exists past; exact H).
  assert (Ew0 : wrapped_mint_of e0 u wtp = w) by (rewrite Ew; exact (wrapped_mint_of_curve e0 e u wtp SC)).
  rewrite <- Ew0 in Mt.
  destruct (C62_undisturbed e0 acts l l' u wtp k t R C Tw TA Mt NE N1 N2 Sp Lo Ld Lc) as (t' & TA' & Mt' & Ow' & Cl' & Dl' & Am' & _ & Cg' & _ & St').
  assert (Hm : exists m, mint_account l (t_mint t) wtp m).
  { rewrite Mt. apply (held_mint e0 l u wtp k t (reachable_inv _ _ R) Tw TA Mt). lia. }
  assert (St1 : t_state t' = t_state t).
  { apply St'. destruct Hm as [m Hm]. exists m. split; [exact Hm|]. intros f Ef. exact (Lf m f Hm Ef). }
  destruct (course_ever _ _ _ _ _ _ C H TH) as (past' & H' & EV').
  assert (HO : holder l' wtp w k (t_owner t) t').
  { split; [exact TA'|]. split; [rewrite Mt', Mt; exact Ew0|]. split; [exact Ow'|]. split; [rewrite St1; exact St|].
    split; [destruct Dl' as [X|X]; rewrite X; [exact Dl|discriminate]|]. rewrite Cg'. exact Cg. }
  destruct (redeem_aux2 e0 e past' l' u utp wtp accounts more signers q recipient k (t_owner t) mu t' tr w a esc
    H' EV' SC Tw Tu Ew Ea Ee D1 D2 D3 Ek Ms Inc Ap We Wr Wk Ww Ac HO Q0 (N.le_trans _ _ _ Q1 Am') Tf Cr Ne Op Nat) as [l'' S].
  assert (KA : keys_are accounts [esc; recipient; a; u; wtp; utp; k; w; t_owner t]) by (exists more; exact Ek).
  destruct (C15_unwrap _ _ _ _ _ _ _ _ _ _ _ _ _ _ Q2 KA S Ne)
    as (mu' & mw & ts & te & tr0 & fee & ts' & te' & tr' & _ & (Mu' & _ & Ts & _ & _ & _ & Tr & _) & (_ & Fee & Fle & Qle & _) & _ & _ & (Lr & Ar & _) & Lk & (Ak & _) & _).
  destruct Tf as (Tf1 & _ & Hk). assert (mu' = mu). { destruct Tf1 as (_ & Tf1). destruct Tf1 as [Tf1 _]. destruct Mu' as [Mu' _]. rewrite Tf1 in Mu'. now inversion Mu'. }
  subst mu'. specialize (Lk (or_introl Hk)).
  assert (ts = t'). { destruct Ts as (_ & Ts & _). destruct TA' as (_ & TA' & _). rewrite TA' in Ts. now inversion Ts. } subst ts.
  exists l'', fee. split; [exact S|]. split; [exact Fee|]. split; [exact Fle|].
  unfold balance. destruct TA' as (_ & Dk & _). destruct Tr as (_ & Dr & _). rewrite Dk, Dr, Lk, Lr. cbn [a_data]. split; [exact Am'|]. split; [lia|exact Ar].
Qed.
(** A holder of wrapped tokens (an ordinary open account, no CPI guard) leaves them alone during any course of actions. If the
    unwrapped mint never had a permanent delegate, then at the end Unwrap of any part of them succeeds, provided only that
    unwrapped tokens can then be moved at all: the mint is neither paused nor hooked, the escrow is not frozen, and the recipient
    can receive. *)
Theorem C63_walk_away : forall e0 e past acts l l' u utp wtp accounts more signers q recipient k mu t tr,
  history e0 past l -> course e0 acts l l' -> throughout (no_permanent_delegate u) past acts l l' ->
  same_curve e0 e -> spl_or_t22 wtp -> spl_or_t22 utp ->
  let w := wrapped_mint_of e u wtp in let a := authority_of e w in let esc := escrow_of e u utp wtp in
  derivable e (wrapped_mint_seeds u wtp) tw_id -> derivable e (wrapped_mint_authority_seeds w) tw_id -> derivable e (ata_seeds a u utp) ata_id ->
  holder l wtp w k (t_owner t) t -> not_escrow e0 k -> t_owner t <> system_id -> t_owner t <> incinerator_id ->
  left_alone acts wtp l t -> (wtp = t22_id \/ forall b x, In (b, x) acts -> hooks_spare b k) ->
  0 < q -> q <= t_amount t -> q < two64 ->
  map i_key accounts = [esc; recipient; a; u; wtp; utp; k; w; t_owner t] ++ more ->
  writable accounts esc -> writable accounts recipient -> writable accounts k -> writable accounts w ->
  e_multisig e l' (t_owner t) (skipn 9 accounts) = Ok signers -> incl signers more -> owner_acts accounts l' wtp (t_owner t) signers ->
  appends_signers e accounts ->
  transferable l' utp u mu -> can_receive e l' utp u recipient mu tr -> recipient <> esc -> open_account l' esc ->
  (native_mint u -> lamports l' recipient + lamports l' esc < two64) ->
  exists l'' fee, succeeds e accounts (Unwrap q) l' l'' /\ fee_for mu (e_epoch e) q fee /\ fee <= q /\
    t_amount t <= balance l' k /\ balance l'' k + q = balance l' k /\ balance l'' recipient = balance l' recipient + (q - fee).
Proof.
  intros e0 e past acts l l' u utp wtp accounts more signers q recipient k mu t tr H C TH SC Tw Tu w a esc D1 D2 D3 HO NE N1 N2 LA Sp Q0 Q1 Q2 Ek We Wr Wk Ww Ms Inc Ac Ap Tf Cr Ne Op Nat.
  exact (walk_aux e0 e past acts l l' u utp wtp accounts more signers q recipient k mu t tr w a esc H C TH SC Tw Tu eq_refl eq_refl eq_refl D1 D2 D3 HO NE N1 N2 LA Sp Q0 Q1 Q2 Ek We Wr Wk Ww Ms Inc Ac Ap Tf Cr Ne Op Nat).
Qed.
Print Assumptions C63_walk_away.

(** In particular for tokens just wrapped: what Wrap of [n] gave ([n] less the mint's transfer fee) can be unwrapped after any
    course of actions during which the account it went to is left alone. *)
Theorem C63_wrapped : forall e0 e1 e past acts acc1 l0 l l' u utp wtp s ta n m0 f accounts more signers q recipient k mu t tr,
  history e0 past l0 -> lawful e0 e1 -> no_tw_signer acc1 -> n < two64 ->
  let w := wrapped_mint_of e u wtp in let a := authority_of e w in let esc := escrow_of e u utp wtp in
  keys_are acc1 [k; w; a; utp; wtp; s; u; esc; ta] -> succeeds e1 acc1 (Wrap n) l0 l -> s <> esc ->
  mint_data l0 u m0 -> fee_for m0 (e_epoch e1) n f ->
  course e0 acts l l' -> throughout (no_permanent_delegate u) (l0 :: past) acts l l' ->
  same_curve e0 e -> spl_or_t22 wtp -> spl_or_t22 utp ->
  derivable e (wrapped_mint_seeds u wtp) tw_id -> derivable e (wrapped_mint_authority_seeds w) tw_id -> derivable e (ata_seeds a u utp) ata_id ->
  holder l wtp w k (t_owner t) t -> not_escrow e0 k -> t_owner t <> system_id -> t_owner t <> incinerator_id ->
  left_alone acts wtp l t -> (wtp = t22_id \/ forall b x, In (b, x) acts -> hooks_spare b k) ->
  0 < q -> q <= n - f ->
  map i_key accounts = [esc; recipient; a; u; wtp; utp; k; w; t_owner t] ++ more ->
  writable accounts esc -> writable accounts recipient -> writable accounts k -> writable accounts w ->
  e_multisig e l' (t_owner t) (skipn 9 accounts) = Ok signers -> incl signers more -> owner_acts accounts l' wtp (t_owner t) signers ->
  appends_signers e accounts ->
  transferable l' utp u mu -> can_receive e l' utp u recipient mu tr -> recipient <> esc -> open_account l' esc ->
  (native_mint u -> lamports l' recipient + lamports l' esc < two64) ->
  exists l'' fee, succeeds e accounts (Unwrap q) l' l'' /\ fee_for mu (e_epoch e) q fee /\ fee <= q /\
    balance l'' k + q = balance l' k /\ balance l'' recipient = balance l' recipient + (q - fee).
Proof.
  intros e0 e1 e past acts acc1 l0 l l' u utp wtp s ta n m0 f accounts more signers q recipient k mu t tr H0 L1 NS Nn w a esc K1 S1 Nes M0 F0
    C TH SC Tw Tu D1 D2 D3 HO NE N1 N2 LA Sp Q0 Q1 Ek We Wr Wk Ww Ms Inc Ac Ap Tf Cr Ne Op Nat.
  assert (ST : step e0 (ATokenWrap e1 acc1 (pack (Wrap n))) l0 l) by (apply st_token_wrap; [exact L1|exact NS|exact S1]).
  assert (AM : n - f <= t_amount t).
  { destruct (C13_wrap _ _ _ _ _ _ _ _ _ _ _ _ _ _ Nn K1 S1 Nes) as (mu0 & mw & ts & te & fee & ts' & te' & _ & (Mu & _) & (_ & Fe & _) & _ & _ & _ & (tr0 & _ & _ & Dr & _) & _).
    destruct HO as ((_ & Dk & _) & _). rewrite Dk in Dr. apply (f_equal (fun d => match d with DTok x => t_amount x | _ => 0 end)) in Dr. cbn in Dr.
    assert (mu0 = m0). { destruct Mu as [Mu _]. destruct M0 as [M0 _]. rewrite M0 in Mu. now inversion Mu. } subst mu0.
    rewrite (fee_for_fun _ _ _ _ _ F0 Fe). lia. }
  assert (Q2 : q < two64) by lia.
  destruct (walk_aux e0 e (l0 :: past) acts l l' u utp wtp accounts more signers q recipient k mu t tr w a esc (h_step _ _ _ _ _ H0 ST) C TH SC Tw Tu eq_refl eq_refl eq_refl D1 D2 D3 HO NE N1 N2 LA Sp Q0 (N.le_trans _ _ _ Q1 AM) Q2 Ek We Wr Wk Ww Ms Inc Ac Ap Tf Cr Ne Op Nat)
    as (l'' & fee & A1 & A2 & A3 & _ & A4 & A5).
  exists l'', fee. split; [exact A1|]. split; [exact A2|]. split; [exact A3|]. split; [exact A4|exact A5].
Qed.
Print Assumptions C63_wrapped.

(** ** The hypotheses are met: while Bob does nothing, Alice unwraps 100 and sends him 20; then Bob redeems his 50. *)
Definition bob_redeems_50 : tw_instruction :=
  build_unwrap tw_id (d_esc spl_token_id t22_id) d_alice_u (d_a t22_id) d_u t22_id spl_token_id d_bob_w (d_w t22_id) d_bob [] 50.
(** What has to be seen of the two states. *)
Definition plain_wallet (x : ledger) (k : pubkey) : bool := match a_data (x k) with DMultisig _ => false | _ => true end.
Definition seen (x y : ledger) : bool :=
  plain_wallet x d_bob && plain_wallet x d_freeze && plain_wallet y d_bob &&
  pk_eqb (a_owner (x d_u)) spl_token_id && pk_eqb (a_owner (y d_u)) spl_token_id &&
  match a_data (y d_u), a_data (y d_alice_u), a_data (y (d_esc spl_token_id t22_id)) with
  | DMint m, DTok tr, DTok te =>
      m_init m && negb (ext_paused m) && opk_eqb (ext_hook m) None && pk_eqb (a_owner (y d_alice_u)) spl_token_id && pk_eqb (t_mint tr) d_u &&
      acct_state_eqb (t_state tr) Initialized && negb (memo_required tr) && match ext_fee m with None => true | _ => false end &&
      acct_state_eqb (t_state te) Initialized && match t_exts te with [] => true | _ => false end
  | _, _, _ => false
  end.
Lemma npd_spl x u : a_owner (x u) = spl_token_id -> no_permanent_delegate u x.
Proof. intros O m (O' & _). rewrite O in O'. discriminate O'. Qed.
Lemma initialized_dec st : acct_state_eqb st Initialized = true -> st = Initialized.
Proof. destruct st; [discriminate|reflexivity|discriminate]. Qed.
Example C63_example : exists l1 l2 l3,
  course demo_env (alice_acts (now_of story) l1) (now_of story) l2 /\ left_alone (alice_acts (now_of story) l1) t22_id (now_of story) bob_tok /\
  succeeds demo_env (tx_metas bob_redeems_50) (Unwrap 50) l2 l3 /\ 50 <= balance l2 d_bob_w /\
  balance l3 d_alice_u = balance l2 d_alice_u + 50.
Proof.
  destruct (process_instruction demo_env (mkCtx tw_id (tx_metas (i_unwrap 100))) (tx_data (i_unwrap 100)) (now_of story)) as [l1|err] eqn:E1.
  2: { exfalso. assert (K : match process_instruction demo_env (mkCtx tw_id (tx_metas (i_unwrap 100))) (tx_data (i_unwrap 100)) (now_of story) with Ok _ => true | Err _ => false end = true) by (vm_compute; reflexivity).
       rewrite E1 in K. discriminate K. }
  destruct (tok_exec demo_env t22_id false send_bob_20 (TiTransferChecked 20 6) l1) as [l2|err] eqn:E2.
  2: { exfalso. assert (K : match process_instruction demo_env (mkCtx tw_id (tx_metas (i_unwrap 100))) (tx_data (i_unwrap 100)) (now_of story) with
                            | Ok x => match tok_exec demo_env t22_id false send_bob_20 (TiTransferChecked 20 6) x with Ok _ => true | Err _ => false end | Err _ => false end = true)
         by (vm_compute; reflexivity).
       rewrite E1, E2 in K. discriminate K. }
  assert (SEEN : seen l1 l2 = true).
  { assert (K : match process_instruction demo_env (mkCtx tw_id (tx_metas (i_unwrap 100))) (tx_data (i_unwrap 100)) (now_of story) with
                | Ok x => match tok_exec demo_env t22_id false send_bob_20 (TiTransferChecked 20 6) x with Ok y => seen x y | Err _ => false end | Err _ => false end = true)
         by (vm_compute; reflexivity).
    rewrite E1, E2 in K. exact K. }
  assert (CO : course demo_env (alice_acts (now_of story) l1) (now_of story) l2).
  { eapply co_step; [apply st_token_wrap; [exact demo_lawful|apply unsignedb_true; vm_compute; reflexivity|exact E1]|].
    eapply co_step; [apply st_token_program; [exact demo_lawful|right; reflexivity|apply unsignedb_true; vm_compute; reflexivity|exact E2]|]. apply co_end. }
  unfold seen in SEEN. apply andb_true_iff in SEEN. destruct SEEN as [SEEN SM]. repeat (apply andb_true_iff in SEEN; let Q := fresh "Q" in destruct SEEN as [SEEN Q]).
  rename SEEN into P1. rename Q2 into P2. rename Q1 into P3. apply pk_eqb_eq in Q0. apply pk_eqb_eq in Q.
  destruct (a_data (l2 d_u)) as [|m| | | |] eqn:DU; try discriminate SM. destruct (a_data (l2 d_alice_u)) as [| | |tr| |] eqn:DA; try discriminate SM.
  destruct (a_data (l2 (d_esc spl_token_id t22_id))) as [| | |te| |] eqn:DE; try discriminate SM.
  repeat (apply andb_true_iff in SM; let Q := fresh "S" in destruct SM as [SM Q]).
  assert (ID : forall k, (k = d_bob \/ k = d_freeze) -> idle (alice_acts (now_of story) l1) t22_id k).
  { intros k Hk a x [X|[X|[]]]; apply pair_equal_spec in X; destruct X as [<- <-]; (apply not_signed_by; [clear -Hk; destruct Hk as [-> | ->]; vm_compute; reflexivity|]).
    - intros v X. destruct Hk as [-> | ->]; vm_compute in X; discriminate X.
    - intros v X. destruct Hk as [-> | ->]; [unfold plain_wallet in P1; rewrite X in P1; discriminate P1|unfold plain_wallet in P2; rewrite X in P2; discriminate P2]. }
  destruct bob_account as (B1 & B2 & B3 & B4 & B5 & B6 & B7).
  assert (LA : left_alone (alice_acts (now_of story) l1) t22_id (now_of story) bob_tok).
  { split; [rewrite B3; apply ID; left; reflexivity|]. split; [rewrite B5; discriminate|]. split; [rewrite B6; discriminate|].
    intros v f (_ & X & _) Y. apply ID. right. rewrite B2 in X. vm_compute in X. inversion X; subst v. clear X. vm_compute in Y. inversion Y. reflexivity. }
  destruct (C63_walk_away demo_env demo_env (past_of story) (alice_acts (now_of story) l1) (now_of story) l2 d_u spl_token_id t22_id (tx_metas bob_redeems_50) [] [] 50 d_alice_u d_bob_w m bob_tok tr)
    as (l3 & fee & R1 & R2 & R3 & R4 & R5 & R6).
  - apply played_history. vm_compute. reflexivity.
  - exact CO.
  - split; [exact story_no_pd|]. split; [|apply npd_spl; exact Q].
    intros a x [X|[X|[]]]; apply pair_equal_spec in X; destruct X as [_ <-]; [apply story_no_pd; left; reflexivity|apply npd_spl; exact Q0].
  - apply same_curve_refl.
  - right; reflexivity.
  - left; reflexivity.
  - apply demo_derivable.
  - apply demo_derivable.
  - apply demo_derivable.
  - split; [exact B1|]. split; [exact B2|]. split; [reflexivity|]. split; [exact B7|]. split; [rewrite B5; discriminate|vm_compute; reflexivity].
  - exact bob_not_escrow.
  - rewrite B3. discriminate.
  - rewrite B3. discriminate.
  - exact LA.
  - left; reflexivity.
  - lia.
  - rewrite B4. lia.
  - reflexivity.
  - rewrite B3. vm_compute. reflexivity.
  - apply in_writable. vm_compute. reflexivity.
  - apply in_writable. vm_compute. reflexivity.
  - apply in_writable. vm_compute. reflexivity.
  - apply in_writable. vm_compute. reflexivity.
  - reflexivity.
  - intros x [].
  - rewrite B3. left. split; [reflexivity|]. split; [exists (meta_r d_bob true); split; [do 8 right; left; reflexivity|split; reflexivity]|].
    intros v X. unfold plain_wallet in P3. rewrite X in P3. discriminate P3.
  - intro x. exists []. split; [reflexivity|intros k []].
  - apply negb_true_iff in S7. apply opk_eqb_eq in S6. split; [split; [exact Q|split; [exact DU|exact SM]]|]. split; [exact S7|exact S6].
  - apply pk_eqb_eq in S5. apply pk_eqb_eq in S4. apply initialized_dec in S3. apply negb_true_iff in S2.
    split; [split; [exact S5|split; [exact DA|rewrite S3; discriminate]]|]. split; [exact S4|]. split; [exact S3|]. split; [rewrite S2; discriminate|].
    destruct (ext_fee m); [discriminate S1|intro X; contradiction X; reflexivity].
  - vm_compute. discriminate.
  - intros t X. assert (DE' : a_data (l2 (escrow_of demo_env d_u spl_token_id t22_id)) = DTok te) by exact DE. rewrite DE' in X. inversion X; subst t.
    split; [exact (initialized_dec _ S0)|]. destruct (t_exts te); [intros []|discriminate S].
  - intros [X|X]; exfalso; vm_compute in X; discriminate X.
  - exists l1, l2, l3. split; [exact CO|]. split; [exact LA|]. split; [exact R1|]. split; [rewrite <- B4; exact R4|].
    assert (fee = 0). { unfold fee_for in R2. destruct (ext_fee m); [discriminate S1|exact R2]. } rewrite R6. subst fee. reflexivity.
Qed.

(** Alice wraps 10, then does nothing while Bob redeems 30, then unwraps her 10. *)
Definition tok_of (x : ledger) (k : pubkey) : tokacc := match a_data (x k) with DTok t => t | _ => mkTok d_u d_u 0 None 0 Uninitialized None None [] end.
Definition seen2 (l x y : ledger) : bool :=
  let t := tok_of l d_alice_w in
  match a_data (l d_alice_w) with DTok _ => true | _ => false end && pk_eqb (a_owner (l d_alice_w)) t22_id && pk_eqb (t_mint t) (d_w t22_id) &&
  acct_state_eqb (t_state t) Initialized && opk_eqb (t_delegate t) None && opk_eqb (t_close t) None && negb (cpi_guard_locked t) && pk_eqb (t_owner t) d_alice &&
  match a_data (l (d_w t22_id)) with DMint m => opk_eqb (m_freeze m) (Some d_freeze) | _ => false end &&
  plain_wallet l d_alice && plain_wallet l d_freeze && plain_wallet x d_alice && plain_wallet x d_freeze && plain_wallet y d_alice && 
  pk_eqb (a_owner (l d_u)) spl_token_id && seen l y.
Definition bob_acts (l : ledger) : list (action * ledger) := [(ATokenWrap demo_env (tx_metas bob_redeems) (tx_data bob_redeems), l)].
Example C63_wrapped_example : exists l l1 l2,
  succeeds demo_env (tx_metas (i_wrap 10)) (Wrap 10) (now_of story) l /\
  course demo_env (bob_acts l) l l1 /\ left_alone (bob_acts l) t22_id l (tok_of l d_alice_w) /\
  succeeds demo_env (tx_metas (i_unwrap 10)) (Unwrap 10) l1 l2 /\ balance l2 d_alice_u = balance l1 d_alice_u + 10.
Proof.
  destruct (process_instruction demo_env (mkCtx tw_id (tx_metas (i_wrap 10))) (pack (Wrap 10)) (now_of story)) as [l|err] eqn:E0.
  2: { exfalso. assert (K : match process_instruction demo_env (mkCtx tw_id (tx_metas (i_wrap 10))) (pack (Wrap 10)) (now_of story) with Ok _ => true | Err _ => false end = true) by (vm_compute; reflexivity).
       rewrite E0 in K. discriminate K. }
  destruct (process_instruction demo_env (mkCtx tw_id (tx_metas bob_redeems)) (tx_data bob_redeems) l) as [l1|err] eqn:E1.
  2: { exfalso. assert (K : match process_instruction demo_env (mkCtx tw_id (tx_metas (i_wrap 10))) (pack (Wrap 10)) (now_of story) with
                            | Ok x => match process_instruction demo_env (mkCtx tw_id (tx_metas bob_redeems)) (tx_data bob_redeems) x with Ok _ => true | Err _ => false end | Err _ => false end = true)
         by (vm_compute; reflexivity).
       rewrite E0, E1 in K. discriminate K. }
  assert (SEEN : seen2 l l l1 = true).
  { assert (K : match process_instruction demo_env (mkCtx tw_id (tx_metas (i_wrap 10))) (pack (Wrap 10)) (now_of story) with
                | Ok x => match process_instruction demo_env (mkCtx tw_id (tx_metas bob_redeems)) (tx_data bob_redeems) x with Ok y => seen2 x x y | Err _ => false end | Err _ => false end = true)
         by (vm_compute; reflexivity).
    rewrite E0, E1 in K. exact K. }
  assert (CO : course demo_env (bob_acts l) l l1).
  { eapply co_step; [apply st_token_wrap; [exact demo_lawful|apply unsignedb_true; vm_compute; reflexivity|exact E1]|]. apply co_end. }
  unfold seen2 in SEEN. cbv zeta in SEEN. apply andb_true_iff in SEEN. destruct SEEN as [SEEN SM0]. repeat (apply andb_true_iff in SEEN; let Q := fresh "G" in destruct SEEN as [SEEN Q]).
  unfold seen in SM0. apply andb_true_iff in SM0. destruct SM0 as [SE SM]. repeat (apply andb_true_iff in SE; let Q := fresh "Q" in destruct SE as [SE Q]).
  apply pk_eqb_eq in Q0. apply pk_eqb_eq in Q.
  destruct (a_data (l1 d_u)) as [|m| | | |] eqn:DU; try discriminate SM. destruct (a_data (l1 d_alice_u)) as [| | |tr| |] eqn:DA; try discriminate SM.
  destruct (a_data (l1 (d_esc spl_token_id t22_id))) as [| | |te| |] eqn:DE; try discriminate SM.
  repeat (apply andb_true_iff in SM; let Q := fresh "S" in destruct SM as [SM Q]).
  destruct (a_data (l d_alice_w)) as [| | |ta| |] eqn:DT; try discriminate SEEN.
  assert (TK : tok_of l d_alice_w = ta) by (unfold tok_of; rewrite DT; reflexivity). rewrite TK in *.
  destruct (a_data (l (d_w t22_id))) as [|mw| | | |] eqn:DW; try discriminate G5. apply opk_eqb_eq in G5.
  apply pk_eqb_eq in G12. apply pk_eqb_eq in G11. apply initialized_dec in G10. apply opk_eqb_eq in G9. apply opk_eqb_eq in G8. apply negb_true_iff in G7. apply pk_eqb_eq in G6.
  assert (ID : forall k, (k = d_alice \/ k = d_freeze) -> idle (bob_acts l) t22_id k).
  { intros k Hk a x [X|[]]; apply pair_equal_spec in X; destruct X as [<- <-]; (apply not_signed_by; [clear -Hk; destruct Hk as [-> | ->]; vm_compute; reflexivity|]).
    intros v X. destruct Hk as [-> | ->]; [unfold plain_wallet in G4; rewrite X in G4; discriminate G4|unfold plain_wallet in G3; rewrite X in G3; discriminate G3]. }
  assert (LA : left_alone (bob_acts l) t22_id l ta).
  { split; [rewrite G6; apply ID; left; reflexivity|]. split; [rewrite G9; discriminate|]. split; [rewrite G8; discriminate|].
    intros v f (_ & X & _) Y. apply ID. right. rewrite G11 in X. rewrite DW in X. inversion X; subst v. rewrite G5 in Y. inversion Y. reflexivity. }
  assert (M0 : exists x, a_data (now_of story d_u) = DMint x) by (eexists; vm_compute; reflexivity). destruct M0 as [mu0 M0].
  assert (F0 : m_init mu0 = true /\ fee_for mu0 (e_epoch demo_env) 10 0) by (revert M0; vm_compute; intro X; inversion X; split; reflexivity).
  assert (NPD : throughout (no_permanent_delegate d_u) (now_of story :: past_of story) (bob_acts l) l l1).
  { apply pk_eqb_eq in G. split; [|split; [|apply npd_spl; exact Q]].
    - intros x [<-|Hx]; [apply npd_spl; exact G|exact (story_no_pd x Hx)].
    - intros a x [X|[]]; apply pair_equal_spec in X; destruct X as [_ <-]. apply npd_spl; exact G. }
  destruct (C63_wrapped demo_env demo_env demo_env (past_of story) (bob_acts l) (tx_metas (i_wrap 10)) (now_of story) l l1 d_u spl_token_id t22_id d_alice_u d_alice 10 mu0 0
              (tx_metas (i_unwrap 10)) [] [] 10 d_alice_u d_alice_w m ta tr)
    as (l2 & fee & R1 & R2 & R3 & R4 & R5).
  - apply played_history. vm_compute. reflexivity.
  - exact demo_lawful.
  - apply unsignedb_true. vm_compute. reflexivity.
  - reflexivity.
  - exists []. vm_compute. reflexivity.
  - exact E0.
  - vm_compute. discriminate.
  - split; [exact M0|exact (proj1 F0)].
  - exact (proj2 F0).
  - exact CO.
  - exact NPD.
  - apply same_curve_refl.
  - right; reflexivity.
  - left; reflexivity.
  - apply demo_derivable.
  - apply demo_derivable.
  - apply demo_derivable.
  - split; [split; [exact G12|split; [exact DT|rewrite G10; discriminate]]|]. split; [exact G11|]. split; [reflexivity|]. split; [exact G10|]. split; [rewrite G9; discriminate|exact G7].
  - intros u utp wtp. unfold escrow_of, ata_of, pda. discriminate.
  - rewrite G6. discriminate.
  - rewrite G6. discriminate.
  - exact LA.
  - left; reflexivity.
  - lia.
  - lia.
  - rewrite G6. vm_compute. reflexivity.
  - apply in_writable. vm_compute. reflexivity.
  - apply in_writable. vm_compute. reflexivity.
  - apply in_writable. vm_compute. reflexivity.
  - apply in_writable. vm_compute. reflexivity.
  - reflexivity.
  - intros x [].
  - rewrite G6. left. split; [reflexivity|]. split; [exists (meta_r d_alice true); split; [do 8 right; left; reflexivity|split; reflexivity]|].
    intros v X. unfold plain_wallet in G0. rewrite X in G0. discriminate G0.
  - intro x. exists []. split; [reflexivity|intros k []].
  - apply negb_true_iff in S7. apply opk_eqb_eq in S6. split; [split; [exact Q|split; [exact DU|exact SM]]|]. split; [exact S7|exact S6].
  - apply pk_eqb_eq in S5. apply pk_eqb_eq in S4. apply initialized_dec in S3. apply negb_true_iff in S2.
    split; [split; [exact S5|split; [exact DA|rewrite S3; discriminate]]|]. split; [exact S4|]. split; [exact S3|]. split; [rewrite S2; discriminate|].
    destruct (ext_fee m); [discriminate S1|intro X; contradiction X; reflexivity].
  - vm_compute. discriminate.
  - intros t X. assert (DE' : a_data (l1 (escrow_of demo_env d_u spl_token_id t22_id)) = DTok te) by exact DE. rewrite DE' in X. inversion X; subst t.
    split; [exact (initialized_dec _ S0)|]. destruct (t_exts te); [intros []|discriminate S].
  - intros [X|X]; exfalso; vm_compute in X; discriminate X.
  - exists l, l1, l2. split; [exact E0|]. split; [exact CO|]. split; [rewrite TK; exact LA|]. split; [exact R1|].
    assert (fee = 0). { unfold fee_for in R2. destruct (ext_fee m); [discriminate S1|exact R2]. } rewrite R5. subst fee. reflexivity.
Qed.
