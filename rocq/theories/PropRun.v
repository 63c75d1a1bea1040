(** * PropRun.v — C67: a run on the escrow.  All holders of a wrapped token can redeem everything they hold, one after
    the other in any order; whoever comes last is paid in full. *)
From Coq Require Import Permutation.
From Verif Require Import Base Codec State Pda TokenProg Cpi Ata Meta Processor Builders Tac PdaProofs Spec SpecLemmas WrapProofs HistorySpec
  InvHist HistProofs EscLive UnwrapLive LocalSpec OrdersSpec OrdersProofs OrdersStep Demo Demo2 DemoHist PropWrap PropRedeem PropOrders.

(** ** Spec: a holder who redeems part or all of what their account holds (the conditions of C19). *)
Definition redeems (e0 : env) (l : ledger) (u utp wtp : pubkey) (mu : mint) (o : order) : Prop :=
  let e := o_env o in let w := wrapped_mint_of e0 u wtp in let a := authority_of e0 w in let esc := escrow_of e0 u utp wtp in
  let accounts := o_accounts o in let owner := o_authority o in
  o_side o = Unwraps /\
  (derivable e (wrapped_mint_seeds u wtp) tw_id /\ derivable e (wrapped_mint_authority_seeds w) tw_id /\ derivable e (ata_seeds a u utp) ata_id) /\
  (writable accounts esc /\ writable accounts (o_recipient o) /\ writable accounts (o_source o) /\ writable accounts w) /\
  (exists signers, e_multisig e l owner (skipn 9 accounts) = Ok signers /\ incl signers (skipn 9 (map i_key accounts)) /\
     owner_acts accounts l wtp owner signers) /\
  appends_signers e accounts /\
  (exists ts, holder l wtp w (o_source o) owner ts /\ 0 < o_amount o /\ o_amount o <= t_amount ts) /\
  (exists tr, can_receive e l utp u (o_recipient o) mu tr) /\
  (native_mint u -> lamports l (o_recipient o) + lamports l esc < two64).
(** What all of them redeem together *)
Definition total_redeemed (os : list order) : N := fold_right (fun o n => o_amount o + n) 0 os.

Lemma redeem_alone e0 past l u utp wtp mu o :
  history e0 past l -> ever (no_permanent_delegate u) past l -> spl_or_t22 utp -> spl_or_t22 wtp -> order_on e0 u utp wtp o ->
  transferable l utp u mu -> open_account l (escrow_of e0 u utp wtp) -> redeems e0 l u utp wtp mu o -> exists l1, goes_through o l l1.
Proof.
  intros H NP Tu Tw On Tr Op R.
  destruct (order_on_at e0 u utp wtp o _ _ _ On eq_refl eq_refl eq_refl) as ((Law & _ & _ & _ & Nre & Hk) & Ew & Ea & Ee).
  destruct R as (Sd & (D1 & D2 & D3) & (We & Wr & Ws & Ww) & (signers & Ms & Inc & Own) & Ap & (ts & Ho & Pos & Le) & (tr & Cr) & Nat).
  unfold goes_through, o_instruction. rewrite Sd in *. destruct Hk as (more & Hk).
  assert (Em : skipn 9 (map i_key (o_accounts o)) = more) by (rewrite Hk; reflexivity). rewrite Em in Inc.
  exact (redeem_aux2 e0 (o_env o) past l u utp wtp (o_accounts o) more signers (o_amount o) (o_recipient o) (o_source o) (o_authority o) mu ts tr
    _ _ _ H NP (proj1 Law) Tw Tu Ew Ea Ee D1 D2 D3 Hk Ms Inc Ap We Wr Ws Ww Own Ho Pos Le Tr Cr Nre Op Nat).
Qed.
Lemma unwraps_total mu os i ou f : (forall o, In o os -> o_side o = Unwraps) -> turnover mu os i ou f -> i = 0 /\ ou = total_redeemed os /\ f = 0.
Proof.
  intros U T. induction T as [|x os i o f fee S F T IH|x os i o f S T IH]; [auto| |].
  - rewrite (U x (or_introl eq_refl)) in S. discriminate S.
  - destruct IH as (-> & -> & ->); [intros y Y; apply U; right; exact Y|]. auto.
Qed.

(** Any number of holders, strangers to each other, redeem any amounts up to all they hold: in every order of execution all
    go through; each holder's account falls by the amount and each recipient's rises by it, less the transfer fee;
    escrow and supply fall by the total, and the state reached is again one in which all remaining tokens are backed. *)
Theorem C67_run e0 past l u utp wtp mu os os' :
  order_book e0 past l u utp wtp mu os -> transferable l utp u mu -> open_account l (escrow_of e0 u utp wtp) ->
  (forall o, In o os -> redeems e0 l u utp wtp mu o) -> Permutation os os' ->
  exists l', filled os' l l' /\ reachable e0 l' /\
    balance l (escrow_of e0 u utp wtp) = balance l' (escrow_of e0 u utp wtp) + total_redeemed os /\
    supply l (wrapped_mint_of e0 u wtp) = supply l' (wrapped_mint_of e0 u wtp) + total_redeemed os /\
    supply l' (wrapped_mint_of e0 u wtp) <= balance l' (escrow_of e0 u utp wtp) /\
    forall o, In o os ->
      balance l (o_source o) = balance l' (o_source o) + o_amount o /\
      exists fee, fee_for mu (e_epoch (o_env o)) (o_amount o) fee /\ fee <= o_amount o /\
        balance l' (o_recipient o) = balance l (o_recipient o) + (o_amount o - fee).
Proof.
  intros B Tr Op R P. pose proof (order_book_perm _ _ _ _ _ _ _ _ _ P B) as B'.
  pose proof B as (H & NP & Tu & Tw & Hu & Hook & On & St & Cap).
  assert (Al : forall o, In o os -> exists l1, goes_through o l l1).
  { intros o O. rewrite Forall_forall in On. exact (redeem_alone e0 past l u utp wtp mu o H NP Tu Tw (On o O) Tr Op (R o O)). }
  destruct (C66_all _ _ _ _ _ _ _ _ B') as (l' & F & Af & Re).
  { intros o O. apply Al. exact (Permutation_in o (Permutation_sym P) O). }
  pose proof (after_all_perm _ _ _ _ _ _ _ _ _ (Permutation_sym P) Af) as Af0.
  exists l'. split; [exact F|]. split; [exact Re|].
  destruct Af0 as (i & ou & f & To & Ow & Sh & Fr).
  destruct (unwraps_total mu os i ou f) as (-> & -> & ->); [intros o O; exact (proj1 (R o O))|exact To|].
  assert (M : balance l (escrow_of e0 u utp wtp) = balance l' (escrow_of e0 u utp wtp) + total_redeemed os /\
    supply l (wrapped_mint_of e0 u wtp) = supply l' (wrapped_mint_of e0 u wtp) + total_redeemed os).
  { destruct os as [|x os0].
    - cbn. unfold balance, supply. rewrite (Fr (escrow_of e0 u utp wtp)) by auto. rewrite (Fr (wrapped_mint_of e0 u wtp)) by auto. lia.
    - destruct (Sh ltac:(discriminate)) as (te & mw & (_ & De & _) & (_ & Dw & _) & (M1 & M2 & _ & M3 & M4)).
      unfold balance, supply. rewrite De, Dw, M3, M4. cbn [a_data t_amount m_supply]. lia. }
  split; [exact (proj1 M)|]. split; [exact (proj2 M)|]. split.
  { destruct (backed_l e0 past l u utp wtp H Tw Tu (proj1 Hu) NP) as [_ Bk]. clear -M Bk. lia. }
  intros o O. destruct (Al o O) as (l1 & G). destruct (Ow o l1 O G) as [E1 E2].
  rewrite Forall_forall in On.
  destruct (order_on_at e0 u utp wtp o _ _ _ (On o O) eq_refl eq_refl eq_refl) as ((Law & _ & _ & Lt & Nre & Hk) & _).
  unfold goes_through, o_instruction in G. rewrite (proj1 (R o O)) in Hk, G.
  destruct (unwrap_exact_l (o_env o) (o_accounts o) (o_amount o) l l1 _ _ _ _ _ _ _ _ _ Lt Hk G Nre)
    as (mu' & mw & ts & te & tr & fee & ts' & te' & tr' & _ & ((Du & _) & _ & (_ & Ds & _) & _ & _ & _ & (_ & Dr & _) & _) & (_ & Fe & Fl & Lts & _) & _ & _ & (Lr & Ar & _) & Ls & (As & _) & _).
  assert (mu' = mu) by (destruct Hu as (_ & D & _); clear -D Du; congruence). subst mu'.
  unfold balance. rewrite E1, E2, (Ls (or_introl Hook)), Lr, Ds, Dr. cbn [a_data]. split; [rewrite As; clear -Lts; lia|].
  exists fee. split; [exact Fe|]. split; [exact Fl|exact Ar].
Qed.
Print Assumptions C67_run.

(** In particular: if together they redeem the whole supply, no wrapped token is left. *)
Corollary C67_everybody_out e0 past l u utp wtp mu os :
  order_book e0 past l u utp wtp mu os -> transferable l utp u mu -> open_account l (escrow_of e0 u utp wtp) ->
  (forall o, In o os -> redeems e0 l u utp wtp mu o) -> total_redeemed os = supply l (wrapped_mint_of e0 u wtp) ->
  exists l', filled os l l' /\ reachable e0 l' /\ supply l' (wrapped_mint_of e0 u wtp) = 0.
Proof.
  intros B Tr Op R T. destruct (C67_run _ _ _ _ _ _ _ _ os B Tr Op R (Permutation_refl _)) as (l' & F & Re & _ & S & _).
  exists l'. split; [exact F|]. split; [exact Re|]. lia.
Qed.
Print Assumptions C67_everybody_out.

(** ** The hypotheses are met: in the demo Alice (150) and Bob (50) hold all wrapped tokens, and both redeem everything. *)
Definition alice_out : order := mkOrder demo_env (tx_metas (i_unwrap 150)) Unwraps 150 d_alice_w d_alice_u d_alice.
Definition run_demo : list order := [alice_out; bob_order].
Lemma run_book : exists mu, order_book demo_env (past_of orders_story) (now_of orders_story) d_u spl_token_id t22_id mu run_demo /\
  transferable (now_of orders_story) spl_token_id d_u mu.
Proof.
  assert (M : exists mu, a_data (now_of orders_story d_u) = DMint mu) by (eexists; vm_compute; reflexivity). destruct M as [mu Hm]. exists mu.
  assert (X : match a_data (now_of orders_story d_u) with
    | DMint m => m_init m && negb (ext_paused m) && match ext_hook m with None => true | _ => false end | _ => false end = true) by (vm_compute; reflexivity).
  rewrite Hm in X. apply andb_true_iff in X. destruct X as [X X3]. apply andb_true_iff in X. destruct X as [X1 X2].
  assert (Hk : ext_hook mu = None) by (destruct (ext_hook mu); [discriminate X3|reflexivity]).
  assert (Pa : ext_paused mu = false) by (destruct (ext_paused mu); [discriminate X2|reflexivity]).
  assert (Ma : mint_account (now_of orders_story) d_u spl_token_id mu) by (split; [vm_compute; reflexivity|split; [exact Hm|exact X1]]).
  split; [|split; [exact Ma|split; [exact Pa|exact Hk]]].
  split; [apply played_history; vm_compute; reflexivity|]. split; [exact orders_no_pd|]. split; [left; reflexivity|]. split; [right; reflexivity|].
  split; [exact Ma|]. split; [exact Hk|]. split.
  { apply Forall_cons; [|apply Forall_cons; [|apply Forall_nil]]; apply on_demo; try reflexivity; try (vm_compute; reflexivity); exists []; reflexivity. }
  split.
  { apply FOP_cons; [apply Forall_cons; [|apply Forall_nil]|apply FOP_cons; [apply Forall_nil|apply FOP_nil]]. apply strangers_b. vm_compute. reflexivity. }
  intros [X|X]; exfalso; vm_compute in X; discriminate X.
Qed.
Definition holder_b (l : ledger) (p w source owner : pubkey) (n : N) : bool :=
  match a_data (l source) with
  | DTok t => pk_eqb (a_owner (l source)) p && pk_eqb (t_mint t) w && pk_eqb (t_owner t) owner && acct_state_eqb (t_state t) Initialized &&
              match t_delegate t with None => true | _ => false end && negb (cpi_guard_locked t) && (0 <? n) && (n <=? t_amount t)
  | _ => false
  end.
Lemma holder_b_true l p w source owner n : holder_b l p w source owner n = true -> exists ts, holder l p w source owner ts /\ 0 < n /\ n <= t_amount ts.
Proof.
  unfold holder_b. destruct (a_data (l source)) as [| | |t| |] eqn:D; try discriminate. intro B.
  repeat (apply andb_true_iff in B; let K := fresh in destruct B as [B K]; revert K).
  intros K7 K6 K5 K4 K3 K2 K1. exists t. apply pk_eqb_eq in B, K7, K6. apply N.ltb_lt in K2. apply N.leb_le in K1.
  assert (S : t_state t = Initialized) by (destruct (t_state t); [discriminate K5|reflexivity|discriminate K5]).
  split; [|auto]. split; [split; [exact B|split; [exact D|rewrite S; discriminate]]|]. split; [exact K7|]. split; [exact K6|]. split; [exact S|].
  split; [destruct (t_delegate t); [discriminate K4|discriminate]|]. destruct (cpi_guard_locked t); [discriminate K3|reflexivity].
Qed.
Definition receiver_b (l : ledger) (p u k : pubkey) : bool :=
  match a_data (l k) with
  | DTok t => pk_eqb (a_owner (l k)) p && pk_eqb (t_mint t) u && acct_state_eqb (t_state t) Initialized && negb (memo_required t)
  | _ => false
  end.
Lemma receiver_b_true e l p u k m : receiver_b l p u k = true -> ext_fee m = None -> exists tr, can_receive e l p u k m tr.
Proof.
  unfold receiver_b. destruct (a_data (l k)) as [| | |t| |] eqn:D; try discriminate. intros B Fe.
  repeat (apply andb_true_iff in B; let K := fresh in destruct B as [B K]; revert K).
  intros K3 K2 K1. exists t. apply pk_eqb_eq in B, K3.
  assert (S : t_state t = Initialized) by (destruct (t_state t); [discriminate K2|reflexivity|discriminate K2]).
  split; [split; [exact B|split; [exact D|rewrite S; discriminate]]|]. split; [exact K3|]. split; [exact S|].
  split; [intro Q; rewrite Q in K1; discriminate K1|]. intro Q. destruct (Q Fe).
Qed.
Example C67_example : exists mu l',
  order_book demo_env (past_of orders_story) (now_of orders_story) d_u spl_token_id t22_id mu run_demo /\
  (forall o, In o run_demo -> redeems demo_env (now_of orders_story) d_u spl_token_id t22_id mu o) /\
  total_redeemed run_demo = supply (now_of orders_story) (d_w t22_id) /\ supply (now_of orders_story) (d_w t22_id) = 200 /\
  filled run_demo (now_of orders_story) l' /\ reachable demo_env l' /\ supply l' (d_w t22_id) = 0.
Proof.
  destruct run_book as (mu & B & Tr). exists mu.
  assert (Fe : ext_fee mu = None).
  { assert (X : match a_data (now_of orders_story d_u) with DMint m => match ext_fee m with None => true | _ => false end | _ => false end = true) by (vm_compute; reflexivity).
    destruct Tr as ((_ & D & _) & _). rewrite D in X. destruct (ext_fee mu); [discriminate X|reflexivity]. }
  assert (Op : open_account (now_of orders_story) (escrow_of demo_env d_u spl_token_id t22_id)).
  { assert (X : match a_data (now_of orders_story (escrow_of demo_env d_u spl_token_id t22_id)) with
      DTok t => acct_state_eqb (t_state t) Initialized && negb (existsb (acct_ext_type_eqb XtNonTransferableAccount) (map acct_ext_type_of (t_exts t))) | _ => false end = true) by (vm_compute; reflexivity).
    intros t D. rewrite D in X. apply andb_true_iff in X. destruct X as [X1 X2]. split; [destruct (t_state t); [discriminate X1|reflexivity|discriminate X1]|].
    intro I. assert (Y : existsb (acct_ext_type_eqb XtNonTransferableAccount) (map acct_ext_type_of (t_exts t)) = true)
      by (apply existsb_exists; eexists; split; [exact I|reflexivity]). rewrite Y in X2. discriminate X2. }
  assert (R : forall o, In o run_demo -> redeems demo_env (now_of orders_story) d_u spl_token_id t22_id mu o).
  { intros o O. assert (Q : o = alice_out \/ o = bob_order) by (destruct O as [O|[O|[]]]; [left|right]; symmetry; exact O).
    unfold redeems. cbv zeta.
    assert (Sd : o_side o = Unwraps) by (destruct Q as [-> | ->]; reflexivity).
    assert (En : o_env o = demo_env) by (destruct Q as [-> | ->]; reflexivity). rewrite En.
    split; [exact Sd|]. split; [split; [apply demo_derivable|split; apply demo_derivable]|].
    split; [repeat split; apply in_writable; destruct Q as [-> | ->]; vm_compute; reflexivity|].
    split; [exists []; split; [reflexivity|]; split; [intros k []|]|].
    { left. split; [reflexivity|]. split.
      - destruct Q as [-> | ->]; (eexists; split; [do 8 right; left; reflexivity|split; reflexivity]).
      - intros m X. exfalso. destruct Q as [Q|Q]; rewrite Q in X; vm_compute in X; discriminate X. }
    split; [intro l1; exists []; split; [reflexivity|intros k []]|].
    split; [apply holder_b_true; destruct Q as [-> | ->]; vm_compute; reflexivity|].
    split; [apply receiver_b_true; [destruct Q as [-> | ->]; vm_compute; reflexivity|exact Fe]|].
    intros [X|X]; exfalso; vm_compute in X; discriminate X. }
  destruct (C67_everybody_out demo_env _ _ d_u spl_token_id t22_id mu run_demo B Tr Op R) as (l' & F & Re & S).
  - vm_compute. reflexivity.
  - exists l'. split; [exact B|]. split; [exact R|]. split; [vm_compute; reflexivity|]. split; [vm_compute; reflexivity|]. split; [exact F|]. split; [exact Re|exact S].
Qed.
