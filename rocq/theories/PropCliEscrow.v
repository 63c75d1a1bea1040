(** * PropCliEscrow.v — C41: the create-escrow-account command. *)
From Verif Require Import Base Codec State Pda TokenProg Cpi Ata Meta Processor Builders Cli Tac PdaProofs TokProofs ProcProofs Spec HistorySpec CliSpec CloseProofs SpecLemmas
  InvState InvHist EscProofs UnwrapLive PropClose PropEscrow PropReach CliProofs CliCreate CliEscrow PropCreate PropCli Demo Demo2 DemoHist.

Lemma ata_not_tw_wallet l payer e wal mnt p : wallet l payer -> spl_or_t22 p -> payer <> ata_of e wal mnt p.
Proof.
  intros (_ & _ & _ & A) T E. subst payer. unfold ata_of, pda, is_ata, ata_seeds in A. cbn [app] in A. rewrite pk_eqb_refl in A.
  destruct T as [-> | ->]; rewrite pk_eqb_refl in A; [|rewrite orb_true_r in A]; discriminate A.
Qed.
Lemma assert_mint_ok l u p m : spl_or_t22 p -> mint_account l u p m -> 0 < lamports l u -> assert_mint_account l u = Ok tt.
Proof.
  intros T (Om & Dm & Im) L. unfold assert_mint_account, get_account. unfold lamports in L.
  destruct (a_lamports (l u) =? 0) eqn:E; [apply N.eqb_eq in E; lia|]. cbn [bind]. rewrite Om.
  assert (B : pk_eqb p spl_token_id || pk_eqb p t22_id = true) by (destruct T as [-> | ->]; reflexivity). rewrite B. cbn [guard bind].
  rewrite Dm, (pod_unpack_mint_ok m Im). reflexivity.
Qed.
Lemma owner_ok l u : 0 < lamports l u -> get_account_owner l u = Ok (a_owner (l u)).
Proof.
  intro L. unfold get_account_owner, get_account. unfold lamports in L. destruct (a_lamports (l u) =? 0) eqn:E; [apply N.eqb_eq in E; lia|]. reflexivity.
Qed.
(** The command, up to the question whether the escrow's address holds lamports. *)
Lemma cli_create_escrow_eval e payer u utp wtp idem l mu :
  spl_or_t22 wtp -> spl_or_t22 utp -> mint_account l u utp mu -> 0 < lamports l u ->
  derivable e (wrapped_mint_seeds u wtp) tw_id -> derivable e (wrapped_mint_authority_seeds (wrapped_mint_of e u wtp)) tw_id ->
  derivable e (ata_seeds (authority_of e (wrapped_mint_of e u wtp)) u utp) ata_id ->
  cli_create_escrow e payer u wtp idem l =
    (if lamports l (escrow_of e u utp wtp) =? 0 then Ok (Some (mkTx payer [TxAssociated payer (authority_of e (wrapped_mint_of e u wtp)) u utp] [payer]))
     else if idem then Ok None else Err EInvalidArgument).
Proof.
  intros Tw Tu M L D1 D2 D3. unfold cli_create_escrow. rewrite (parse_ok wtp Tw). cbn [bind]. rewrite (assert_mint_ok l u utp mu Tu M L). cbn [bind].
  rewrite (owner_ok l u L). cbn [bind]. rewrite (get_w_ok e u wtp D1). cbn [bind]. rewrite (get_a_ok e _ D2). cbn [bind].
  destruct M as (Om & _). rewrite Om. rewrite (get_esc_ok e u utp wtp D1 D2 D3). cbn [bind]. unfold get_account, lamports.
  destruct (a_lamports (l (escrow_of e u utp wtp)) =? 0); reflexivity.
Qed.

(** C41: for an existing mint whose escrow's address is untouched, the command creates the genuine escrow, owned by the
    wrapped mint's authority and fitting the mint; the payer pays the fee and the escrow's rent, nothing else changes. *)
Lemma escrow_aux : forall e0 e fee payer u utp wtp idempotent l mu a esc rent,
  reachable e0 l -> same_curve e0 e -> spl_or_t22 wtp -> spl_or_t22 utp -> mint_account l u utp mu -> 0 < lamports l u ->
  a = authority_of e (wrapped_mint_of e u wtp) -> esc = escrow_of e u utp wtp ->
  derivable e (wrapped_mint_seeds u wtp) tw_id -> derivable e (wrapped_mint_authority_seeds (wrapped_mint_of e u wtp)) tw_id -> derivable e (ata_seeds a u utp) ata_id ->
  unallocated l esc -> lamports l esc = 0 -> wallet l payer ->
  rent = N.max 1 (e_rent e (tok_space (init_account_exts utp mu true))) -> rent < two64 -> fee + rent + e_rent e 0 <= lamports l payer ->
  exists t l' te,
    cli_create_escrow e payer u wtp idempotent l = Ok (Some t) /\ accepted e fee t l l' /\ l' esc = mkAcc rent (DTok te) utp /\
    rent = N.max 1 (e_rent e (data_len (a_data (l' esc)))) /\
    t_mint te = u /\ t_owner te = a /\ t_delegate te = None /\ t_close te = None /\ (utp = t22_id -> healthy mu te) /\ (~ native_mint u -> t_amount te = 0) /\
    t_state te = ext_default_state mu /\ paid l l' payer (fee + rent) /\ only_changed l l' [payer; esc].
Proof.
  intros e0 e fee payer u utp wtp idem l mu a esc rent R C Tw Tu M L Ea Ee D1 D2 D3 Un Z W Er R1 Hf.
  assert (X : utp = spl_token_id -> m_exts mu = []).
  { destruct R as [past H]. pose proof (history_inv _ _ _ H) as I. destruct M as (O & D & _). intro E. apply (spl_extless e0 l u mu I); [rewrite O; exact E|exact D]. }
  pose proof W as (Wo & Wd & Wt & Wa).
  assert (Ek : esc = ata_of e a u utp) by (rewrite Ee, Ea; reflexivity).
  assert (Np : payer <> esc) by (rewrite Ek; exact (ata_not_tw_wallet l payer e a u utp W Tu)).
  change (N.max 1 (e_rent e (tok_space (init_account_exts utp mu true)))) with (ata_rent e utp mu) in Er.
  destruct (send_associated e fee payer a u utp l mu esc Tu M X Ek Un Wo Wd Np) as (l' & t & H1 & H2 & H3 & H4 & H5).
  { rewrite Z, N.sub_0_r, <- Er. exact Hf. } { rewrite <- Er. exact R1. } { rewrite Z. reflexivity. }
  rewrite Z, N.sub_0_r, <- Er in H3. rewrite Z, <- Er in H4. replace (N.max 0 rent) with rent in H4 by lia.
  pose proof H2 as (F1 & F2 & F3 & _ & F5 & F6 & F7 & F8).
  exists (mkTx payer [TxAssociated payer a u utp] [payer]), l', t. split.
  - rewrite Ea in D3. rewrite (cli_create_escrow_eval e payer u utp wtp idem l mu Tw Tu M L D1 D2 D3). rewrite <- Ee, <- Ea, Z. reflexivity.
  - split; [exact H1|]. split; [exact H4|]. split; [rewrite H4; cbn [a_data data_len]; rewrite F6; exact Er|].
    split; [exact F1|]. split; [exact F2|]. split; [exact F3|]. split; [exact F5|]. split.
    + intro E. rewrite E in F6. apply fresh_healthy_l. exact F6.
    + split; [|split; [exact F7|split; [exact H3|exact H5]]].
      intro N. destruct (is_native_mint utp u) eqn:Q; [exfalso; exact (N (native_mint_b _ _ Q))|exact (proj1 (F8 eq_refl))].
Qed.
Theorem C41_creates : forall e0 e fee payer u utp wtp idempotent l mu,
  reachable e0 l -> same_curve e0 e -> spl_or_t22 wtp -> spl_or_t22 utp -> mint_account l u utp mu -> 0 < lamports l u ->
  let w := wrapped_mint_of e u wtp in let a := authority_of e w in let esc := escrow_of e u utp wtp in
  derivable e (wrapped_mint_seeds u wtp) tw_id -> derivable e (wrapped_mint_authority_seeds w) tw_id -> derivable e (ata_seeds a u utp) ata_id ->
  unallocated l esc -> lamports l esc = 0 -> wallet l payer ->
  let rent := N.max 1 (e_rent e (tok_space (init_account_exts utp mu true))) in rent < two64 -> fee + rent + e_rent e 0 <= lamports l payer ->
  exists t l' te,
    cli_create_escrow e payer u wtp idempotent l = Ok (Some t) /\ accepted e fee t l l' /\ l' esc = mkAcc rent (DTok te) utp /\
    rent = N.max 1 (e_rent e (data_len (a_data (l' esc)))) /\
    t_mint te = u /\ t_owner te = a /\ t_delegate te = None /\ t_close te = None /\ (utp = t22_id -> healthy mu te) /\ (~ native_mint u -> t_amount te = 0) /\
    t_state te = ext_default_state mu /\ paid l l' payer (fee + rent) /\ only_changed l l' [payer; esc].
Proof.
  intros e0 e fee payer u utp wtp idem l mu R C Tw Tu M L w a esc D1 D2 D3 Un Z W rent R1 Hf.
  exact (escrow_aux e0 e fee payer u utp wtp idem l mu a esc rent R C Tw Tu M L eq_refl eq_refl D1 D2 D3 Un Z W eq_refl R1 Hf).
Qed.

(** If the escrow exists, the command sends nothing: it reports success with --idempotent, an error without. *)
Theorem C41_exists : forall e payer u utp wtp l mu,
  spl_or_t22 wtp -> spl_or_t22 utp -> mint_account l u utp mu -> 0 < lamports l u ->
  let w := wrapped_mint_of e u wtp in let a := authority_of e w in
  derivable e (wrapped_mint_seeds u wtp) tw_id -> derivable e (wrapped_mint_authority_seeds w) tw_id -> derivable e (ata_seeds a u utp) ata_id ->
  0 < lamports l (escrow_of e u utp wtp) ->
  cli_create_escrow e payer u wtp true l = Ok None /\ cli_create_escrow e payer u wtp false l = Err EInvalidArgument.
Proof.
  intros e payer u utp wtp l mu Tw Tu M L w a D1 D2 D3 Z.
  rewrite !(cli_create_escrow_eval e payer u utp wtp _ l mu Tw Tu M L D1 D2 D3).
  destruct (lamports l (escrow_of e u utp wtp) =? 0) eqn:E; [apply N.eqb_eq in E; lia|]. split; reflexivity.
Qed.

(** Finding: anybody can send one lamport to the escrow's address before it exists.  From then on the command never
    creates the escrow: it reports that the account exists although it does not, and with --idempotent even success. *)
Lemma squat_aux : forall e0 e payer u utp wtp l mu w esc k,
  reachable e0 l -> spl_or_t22 wtp -> spl_or_t22 utp -> mint_account l u utp mu -> 0 < lamports l u ->
  w = wrapped_mint_of e u wtp -> esc = escrow_of e u utp wtp ->
  derivable e (wrapped_mint_seeds u wtp) tw_id -> derivable e (wrapped_mint_authority_seeds w) tw_id -> derivable e (ata_seeds (authority_of e w) u utp) ata_id ->
  unallocated l esc -> lamports l esc + 1 < two64 -> wallet l k -> 1 <= lamports l k ->
  exists l1, sys_transfer k esc 1 l = Ok l1 /\ reachable e0 l1 /\ unallocated l1 esc /\
    cli_create_escrow e payer u wtp true l1 = Ok None /\ cli_create_escrow e payer u wtp false l1 = Err EInvalidArgument.
Proof.
  intros e0 e payer u utp wtp l mu w esc k R Tw Tu M L Ew Ee D1 D2 D3 Un B W Hk. pose proof W as (Wo & Wd & Wt & Wa).
  assert (Nk : k <> esc) by (rewrite Ee; exact (ata_not_tw_wallet l k e _ u utp W Tu)).
  destruct (sys_transfer_live k esc 1 l Wo) as (l1 & H1 & H2 & H3 & H4); [rewrite Wd; reflexivity|exact Hk|exact Nk|exact B|].
  assert (Nu : u <> k). { destruct M as (Om & _). intro Hc. subst k. rewrite Wo in Om. destruct Tu as [T|T]; rewrite T in Om; discriminate Om. }
  assert (Nu2 : u <> esc). { destruct M as (Om & _). destruct Un as [_ Uo]. intro Hc. rewrite <- Hc in Uo. rewrite Uo in Om. destruct Tu as [T|T]; rewrite T in Om; discriminate Om. }
  pose proof (H4 u Nu Nu2) as Eu. exists l1. split; [exact H1|]. split.
  { destruct (sys_transfer_inv _ _ _ _ _ H1) as (_ & _ & Hi). apply (reach_step e0 AWorld l l1 R). apply st_world. exact (lamports_world l l1 k Wo Hi). }
  split; [destruct Un as [U1 U2]; split; rewrite H3; cbn [a_data a_owner]; assumption|].
  rewrite Ew in D2, D3. apply (C41_exists e payer u utp wtp l1 mu Tw Tu).
  - destruct M as (Om & Dm & Im). split; [rewrite Eu; exact Om|split; [rewrite Eu; exact Dm|exact Im]].
  - unfold lamports. rewrite Eu. exact L.
  - exact D1. - exact D2. - exact D3.
  - rewrite <- Ee. unfold lamports. rewrite H3. cbn [a_lamports]. lia.
Qed.
Theorem C41_squatted : forall e0 e payer u utp wtp l mu k,
  reachable e0 l -> spl_or_t22 wtp -> spl_or_t22 utp -> mint_account l u utp mu -> 0 < lamports l u ->
  let w := wrapped_mint_of e u wtp in let esc := escrow_of e u utp wtp in
  derivable e (wrapped_mint_seeds u wtp) tw_id -> derivable e (wrapped_mint_authority_seeds w) tw_id -> derivable e (ata_seeds (authority_of e w) u utp) ata_id ->
  unallocated l esc -> lamports l esc + 1 < two64 -> wallet l k -> 1 <= lamports l k ->
  exists l1, sys_transfer k esc 1 l = Ok l1 /\ reachable e0 l1 /\ unallocated l1 esc /\
    cli_create_escrow e payer u wtp true l1 = Ok None /\ cli_create_escrow e payer u wtp false l1 = Err EInvalidArgument.
Proof.
  intros e0 e payer u utp wtp l mu k R Tw Tu M L w esc D1 D2 D3 Un B W Hk.
  exact (squat_aux e0 e payer u utp wtp l mu w esc k R Tw Tu M L eq_refl eq_refl D1 D2 D3 Un B W Hk).
Qed.

(** ** Not vacuous: Alice, 100000 lamports and a fresh mint. *)
Definition cli_setup : list cmd :=
  [ CFund d_alice 100000; CAlloc d_u 82 5000 spl_token_id; CTok spl_token_id [meta_w d_u false] (TiInitializeMint2 6 d_mintauth (Some d_freeze)) ].
Definition cli_mint : mint := mkMint (Some d_mintauth) 0 6 true (Some d_freeze) [] 82.
Lemma cli_setup_reachable : reachable demo_env (now_of cli_setup).
Proof. exists (past_of cli_setup). apply played_history. vm_compute. reflexivity. Qed.
Lemma cli_alice : wallet (now_of cli_setup) d_alice.
Proof. vm_compute. repeat split; reflexivity. Qed.
Lemma cli_d_u : mint_account (now_of cli_setup) d_u spl_token_id cli_mint.
Proof. vm_compute. repeat split; reflexivity. Qed.
Lemma cli_addresses : addresses_exist demo_env d_u t22_id.
Proof. repeat split; apply demo_derivable. Qed.
Lemma cli_unallocated k : k = d_w t22_id \/ k = d_b t22_id \/ k = d_esc spl_token_id t22_id -> unallocated (now_of cli_setup) k /\ lamports (now_of cli_setup) k = 0.
Proof. intros [-> |[-> | ->]]; vm_compute; repeat split; reflexivity. Qed.
Example C40_example : exists t l' exts,
  cli_create_mint demo_env d_alice d_u t22_id false (now_of cli_setup) = Ok t /\ accepted demo_env 5 t (now_of cli_setup) l' /\
  promised_extensions t22_id (d_w t22_id) (d_a t22_id) exts /\
  l' (d_w t22_id) = mkAcc 3030 (DMint (mkMint (Some (d_a t22_id)) 0 6 true (Some d_freeze) exts 303)) t22_id /\
  l' (d_b t22_id) = mkAcc 320 (DKey d_u) tw_id /\ paid (now_of cli_setup) l' d_alice 3355 /\ only_changed (now_of cli_setup) l' [d_alice; d_w t22_id; d_b t22_id].
Proof.
  destruct (cli_unallocated (d_w t22_id)) as [U1 L1]; [left; reflexivity|]. destruct (cli_unallocated (d_b t22_id)) as [U2 L2]; [right; left; reflexivity|].
  destruct (C40_creates demo_env 5 d_alice d_u t22_id false (now_of cli_setup) cli_mint 303) as (t & l' & exts & H1 & H2 & H3 & H4 & H5 & H6 & H7).
  { right. reflexivity. } { exact cli_addresses. } { left. vm_compute. reflexivity. } { destruct cli_d_u as (_ & Dd & Di). split; [exact Dd|exact Di]. } { right. split; reflexivity. }
  { exact U1. } { exact U2. } { exact cli_alice. } { vm_compute. reflexivity. } { vm_compute. reflexivity. }
  { change (lamports (now_of cli_setup) (d_w t22_id) < two64). rewrite L1. reflexivity. } { change (lamports (now_of cli_setup) (d_b t22_id) < two64). rewrite L2. reflexivity. }
  { vm_compute. discriminate. }
  change (wrapped_mint_of demo_env d_u t22_id) with (d_w t22_id) in H3, H4, H5, H6, H7. change (backpointer_of demo_env (d_w t22_id)) with (d_b t22_id) in H5, H6, H7.
  change (authority_of demo_env (d_w t22_id)) with (d_a t22_id) in H3, H4. rewrite L1 in H4, H6. rewrite L2 in H5, H6.
  exists t, l', exts. split; [exact H1|]. split; [exact H2|]. split; [exact H3|]. split; [exact H4|]. split; [exact H5|]. split; [exact H6|exact H7].
Qed.
Example C41_example : exists t l' te,
  cli_create_escrow demo_env d_alice d_u t22_id false (now_of cli_setup) = Ok (Some t) /\ accepted demo_env 5 t (now_of cli_setup) l' /\
  l' (d_esc spl_token_id t22_id) = mkAcc 1650 (DTok te) spl_token_id /\ t_mint te = d_u /\ t_owner te = d_a t22_id /\ paid (now_of cli_setup) l' d_alice 1655.
Proof.
  destruct (cli_unallocated (d_esc spl_token_id t22_id)) as [U1 L1]; [right; right; reflexivity|].
  destruct (C41_creates demo_env demo_env 5 d_alice d_u spl_token_id t22_id false (now_of cli_setup) cli_mint) as (t & l' & te & H1 & H2 & H3 & _ & H4 & H5 & _ & _ & _ & _ & _ & H6 & _).
  { exact cli_setup_reachable. } { apply same_curve_refl. } { right. reflexivity. } { left. reflexivity. } { exact cli_d_u. } { vm_compute. reflexivity. }
  { apply demo_derivable. } { apply demo_derivable. } { apply demo_derivable. } { exact U1. } { exact L1. } { exact cli_alice. } { vm_compute. reflexivity. } { vm_compute. discriminate. }
  exists t, l', te. split; [exact H1|]. split; [exact H2|]. split; [exact H3|]. split; [exact H4|]. split; [exact H5|exact H6].
Qed.
Example C41_squatted_example : exists l1, sys_transfer d_alice (d_esc spl_token_id t22_id) 1 (now_of cli_setup) = Ok l1 /\ reachable demo_env l1 /\
  unallocated l1 (d_esc spl_token_id t22_id) /\ cli_create_escrow demo_env d_bob d_u t22_id true l1 = Ok None.
Proof.
  destruct (cli_unallocated (d_esc spl_token_id t22_id)) as [U1 L1]; [right; right; reflexivity|].
  destruct (C41_squatted demo_env demo_env d_bob d_u spl_token_id t22_id (now_of cli_setup) cli_mint d_alice) as (l1 & H1 & H2 & H3 & H4 & _).
  { exact cli_setup_reachable. } { right. reflexivity. } { left. reflexivity. } { exact cli_d_u. } { vm_compute. reflexivity. }
  { apply demo_derivable. } { apply demo_derivable. } { apply demo_derivable. } { exact U1. }
  { change (lamports (now_of cli_setup) (d_esc spl_token_id t22_id) + 1 < two64). rewrite L1. reflexivity. } { exact cli_alice. } { vm_compute. discriminate. }
  exists l1. split; [exact H1|]. split; [exact H2|]. split; [exact H3|exact H4].
Qed.
Example C40_again_example : exists t l',
  cli_create_mint demo_env d_alice d_u t22_id true (now_of story) = Ok t /\ paid (now_of story) l' d_alice 5 /\ only_changed (now_of story) l' [d_alice] /\
  accepted demo_env 5 t (now_of story) l'.
Proof.
  apply (C40_again demo_env 5 d_alice d_u t22_id true (now_of story) 303).
  - right. reflexivity. - exact cli_addresses. - left. vm_compute. reflexivity. - right. split; reflexivity.
  - vm_compute. reflexivity. - vm_compute. discriminate. - vm_compute. reflexivity. - vm_compute. repeat split; reflexivity.
  - vm_compute. discriminate. - vm_compute. discriminate. - vm_compute. discriminate.
Qed.
Example C41_exists_example : cli_create_escrow demo_env d_alice d_u t22_id true (now_of story) = Ok None.
Proof.
  refine (proj1 (C41_exists demo_env d_alice d_u spl_token_id t22_id (now_of story) (mkMint (Some d_mintauth) 1000 6 true (Some d_freeze) [] 82) _ _ _ _ _ _ _ _)).
  - right. reflexivity. - left. reflexivity. - vm_compute. repeat split; reflexivity. - vm_compute. reflexivity.
  - apply demo_derivable. - apply demo_derivable. - apply demo_derivable. - vm_compute. reflexivity.
Qed.
Example C39_example : forall t l', cli_create_mint demo_env d_alice d_u t22_id false (now_of cli_setup) = Ok t -> accepted demo_env 5 t (now_of cli_setup) l' ->
  possible t /\ In d_alice (tr_signed t) /\ reachable demo_env l'.
Proof.
  intros t l' H A. destruct (C39_client demo_env d_alice (CmdCreateMint d_u t22_id false) (now_of cli_setup) t) as (P & Q & _).
  - reflexivity. - intros s [].
  - unfold transaction_of. rewrite H. reflexivity.
  - split; [exact P|]. split.
    + rewrite <- Q. apply (C39_signatures demo_env 5 t (now_of cli_setup) l' (TxTransfer d_u d_u 0) (tr_payer t) A). left. reflexivity.
    + exact (C39_reachable demo_env demo_env 5 t _ l' _ cli_setup_reachable demo_lawful P A).
Qed.
(** A refused transaction costs the fee: here 5 lamports, because the wrapped mint already exists. *)
Example C39_refused_example : exists t l',
  cli_create_mint demo_env d_alice d_u t22_id false (now_of story) = Ok t /\ refused demo_env 5 t (now_of story) l' EAccountAlreadyInitialized /\
  lamports l' d_alice = 4995 /\ (l' = now_of story \/ (paid (now_of story) l' d_alice 5 /\ only_changed (now_of story) l' [d_alice])).
Proof.
  destruct (C40_again demo_env 5 d_alice d_u t22_id false (now_of story) 303) as (t & l' & H1 & H2 & H3 & H4).
  - right. reflexivity. - exact cli_addresses. - left. vm_compute. reflexivity. - right. split; reflexivity.
  - vm_compute. reflexivity. - vm_compute. discriminate. - vm_compute. reflexivity. - vm_compute. repeat split; reflexivity.
  - vm_compute. discriminate. - vm_compute. discriminate. - vm_compute. discriminate.
  - exists t, l'. split; [exact H1|]. split; [exact H4|]. split; [|right; split; [exact H2|exact H3]].
    destruct H2 as [H2 _]. assert (E : lamports (now_of story) d_alice = 5000) by (vm_compute; reflexivity). rewrite E in H2. lia.
Qed.
