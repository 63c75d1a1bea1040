(** * PropLifecycle.v — C61: the whole life of a wrapped token through the JavaScript client, as in clients/js/src/examples/single-signer.ts:
    createMint, createEscrowAccount, createTokenAccount, singleSignerWrap, singleSignerUnwrap. *)
From Verif Require Import Base Codec State Pda TokenProg Cpi Ata Meta Processor Builders Cli Js JsAccounts Tac PdaProofs TokProofs ProcProofs Spec HistorySpec CliSpec JsSpec CloseProofs SpecLemmas
  CreateProofs CreateSpec InvState InvHist HistProofs PropWrap PropEscrow FrameProofs GlobalProofs PropGlobal CliProofs CliSign CliCreate CodecProofs PropBuilders PropCreate PropCli PropCliEscrow PropCliWrap PropCliUnwrap
  PropJs PropJsTx PropJsUnwrap PropNested PropTokenAccount Demo Demo2 DemoHist.

(** ** Histories through transactions: what a transaction cannot write stays as it was in every state it passes through. *)
Lemma sys_transfer_frame from to n l l' k : sys_transfer from to n l = Ok l' -> k <> from -> k <> to -> l' k = l k.
Proof.
  unfold sys_transfer. intros H N1 N2. apply bind_ok in H. destruct H as ([] & _ & H). apply bind_ok in H. destruct H as ([] & _ & H).
  apply bind_ok in H. destruct H as ([] & _ & H). cbv zeta in H. apply bind_ok in H. destruct H as ([] & _ & H). injection H as <-.
  rewrite upd_other by (intro X; apply N2; symmetry; exact X). apply upd_other. intro X. apply N1. symmetry. exact X.
Qed.
Lemma ata_create_frame e p wal mnt l l' k : ata_create e p wal mnt l = Ok l' -> k <> ata_of e wal mnt p -> l' k = l k.
Proof.
  intros H N. unfold ata_create in H. cbv zeta in H. apply bind_ok in H. destruct H as ([] & _ & H). apply bind_ok in H. destruct H as ([] & _ & H).
  apply bind_ok in H. destruct H as (m & _ & H). unfold tok_init_account in H. apply bind_ok in H. destruct H as (m' & _ & H).
  apply bind_ok in H. destruct H as ([] & _ & H). cbv zeta in H. apply bind_ok in H. destruct H as ([] & _ & H). apply bind_ok in H. destruct H as ([] & _ & H).
  unfold set_data in H. apply bind_ok in H. destruct H as ([] & _ & H). apply bind_ok in H. destruct H as ([] & _ & H). injection H as <-.
  assert (N' : ata_of e wal mnt p <> k) by (intro X; apply N; symmetry; exact X).
  rewrite upd_other by exact N'. apply upd_other. exact N'.
Qed.
Lemma unwritten e payer all ix k : In ix all -> may_write e payer all k = false -> forall i, In i (ix_accounts e ix) -> i_writable i = true -> i_key i <> k.
Proof.
  intros Hi M i Ii Iw X. unfold may_write in M. apply orb_false_iff in M. destruct M as [_ M].
  assert (Q : existsb (fun ix => is_wr (ix_accounts e ix) k) all = true); [|rewrite Q in M; discriminate M].
  apply existsb_exists. exists ix. split; [exact Hi|]. apply is_wr_In. exists i. split; [exact Ii|split; [exact X|exact Iw]].
Qed.
(** [later e0 u past l past' l']: the history of [l] goes on to [l'], and [u] is the same all the way. *)
Definition later (e0 : env) (u : pubkey) (past : list ledger) (l : ledger) (past' : list ledger) (l' : ledger) : Prop :=
  history e0 past' l' /\ forall x, In x (l' :: past') -> In x (l :: past) \/ x u = l u.
Lemma later_refl e0 u past l : history e0 past l -> later e0 u past l past l.
Proof. intro H. split; [exact H|]. intros x Hx. left. exact Hx. Qed.
Lemma later_step e0 u past l past1 l1 a l2 : later e0 u past l past1 l1 -> step e0 a l1 l2 -> l2 u = l1 u -> l1 u = l u -> later e0 u past l (l1 :: past1) l2.
Proof.
  intros [H F] S E E1. split; [exact (h_step e0 past1 l1 a l2 H S)|]. intros x [<-|Hx]; [right; rewrite E; exact E1|exact (F x Hx)].
Qed.
Lemma later_trans e0 u past l past1 l1 past2 l2 : later e0 u past l past1 l1 -> later e0 u past1 l1 past2 l2 -> l1 u = l u -> later e0 u past l past2 l2.
Proof.
  intros [H1 F1] [H2 F2] E. split; [exact H2|]. intros x Hx. destruct (F2 x Hx) as [Q|Q]; [exact (F1 x Q)|right; rewrite Q; exact E].
Qed.
Lemma later_ever e0 u past l past' l' : later e0 u past l past' l' -> ever (no_permanent_delegate u) past l -> ever (no_permanent_delegate u) past' l'.
Proof.
  intros [_ F] E x Hx. destruct (F x Hx) as [Q|Q]; [exact (E x Q)|]. intros m M. apply (E l (or_introl eq_refl)). unfold mint_account, mint_data in *. rewrite <- Q. exact M.
Qed.
Lemma run_ix_later e0 e payer ixs ix u past l past1 l1 l2 :
  later e0 u past l past1 l1 -> l1 u = l u -> lawful e0 e -> (forall k, must_sign e payer ixs k = true -> is_tw_pda k = false) -> In ix ixs -> may_write e payer ixs u = false ->
  match ix with TxTransfer _ _ _ => True | TxAssociated _ _ _ p => spl_or_t22 p | TxTokenWrap i => tx_prog i = tw_id end ->
  run_ix e payer ixs ix l1 = Ok l2 -> (exists past2, later e0 u past l past2 l2) /\ l2 u = l u.
Proof.
  intros R Eu L S Hin Nw P H. pose proof (unwritten e payer ixs ix u Hin Nw) as U. destruct ix as [from to n|pay wal mnt p|i].
  - cbn [run_ix] in H. cbn [ix_accounts] in U.
    assert (E : l2 u = l1 u). { apply (sys_transfer_frame _ _ _ _ _ _ H); intro X; [apply (U (meta_w from true)); [left; reflexivity|reflexivity|symmetry; exact X]|apply (U (meta_w to false)); [right; left; reflexivity|reflexivity|symmetry; exact X]]. }
    destruct (sys_transfer_inv _ _ _ _ _ H) as (Ho & _ & Hk). split; [|rewrite E; exact Eu]. eexists. apply (later_step e0 u past l past1 l1 AWorld l2 R); [|exact E|exact Eu]. apply st_world. exact (lamports_world l1 l2 from Ho Hk).
  - cbn [run_ix] in H. unfold ata_create_paid in H. apply bind_ok in H. destruct H as ([] & E1 & H). apply bind_ok in H. destruct H as (m & E2 & H).
    cbv zeta in H. apply bind_ok in H. destruct H as (l3 & E3 & H). cbn [ix_accounts] in U.
    assert (N1 : u <> pay) by (intro X; apply (U (meta_w pay true)); [left; reflexivity|reflexivity|symmetry; exact X]).
    assert (N2 : u <> ata_of e wal mnt p) by (intro X; apply (U (meta_w (ata_of e wal mnt p) false)); [right; left; reflexivity|reflexivity|symmetry; exact X]).
    assert (R1 : (exists past2, later e0 u past l past2 l3) /\ l3 u = l u).
    { destruct (_ =? 0) in E3.
      - injection E3 as <-. split; [exists past1; exact R|exact Eu].
      - destruct (sys_transfer_inv _ _ _ _ _ E3) as (Ho & _ & Hk). assert (E : l3 u = l1 u) by (apply (sys_transfer_frame _ _ _ _ _ _ E3); assumption).
        split; [|rewrite E; exact Eu]. eexists. apply (later_step e0 u past l past1 l1 AWorld l3 R); [|exact E|exact Eu]. apply st_world. exact (lamports_world l1 l3 pay Ho Hk). }
    destruct R1 as [[past3 R1] Eu3]. assert (E : l2 u = l3 u) by (apply (ata_create_frame _ _ _ _ _ _ _ H); exact N2).
    split; [|rewrite E; exact Eu3]. eexists. apply (later_step e0 u past l past3 l3 (AAssociated e p wal mnt) l2 R1); [|exact E|exact Eu3]. apply st_associated; [exact L|exact P|exact H].
  - cbn [run_ix] in H. rewrite P in H.
    assert (E : l2 u = l1 u).
    { apply rs_process in H. destruct H as [F _]. apply F. change (is_wr (raised e payer ixs (tx_metas i)) u = false). destruct (is_wr (raised e payer ixs (tx_metas i)) u) eqn:Q; [|reflexivity]. exfalso.
      apply is_wr_In in Q. destruct Q as (x & Ix & Kx & Wx). unfold raised in Ix. apply in_map_iff in Ix. destruct Ix as (y & <- & _). cbn [i_key i_writable] in *. rewrite Kx in Wx. rewrite Wx in Nw. discriminate Nw. }
    split; [|rewrite E; exact Eu]. eexists. apply (later_step e0 u past l past1 l1 (ATokenWrap e (raised e payer ixs (tx_metas i)) (tx_data i)) l2 R); [|exact E|exact Eu].
    apply st_token_wrap; [exact L| |exact H]. intros k Hk. apply raised_signed_inv in Hk. apply S. exact (proj1 Hk).
Qed.

Lemma run_ixs_later e0 e payer all u past l ixs : forall past1 l1 l2,
  later e0 u past l past1 l1 -> l1 u = l u -> lawful e0 e -> (forall k, must_sign e payer all k = true -> is_tw_pda k = false) -> may_write e payer all u = false ->
  (forall ix, In ix ixs -> In ix all /\ match ix with TxTransfer _ _ _ => True | TxAssociated _ _ _ p => spl_or_t22 p | TxTokenWrap i => tx_prog i = tw_id end) ->
  run_ixs e payer all ixs l1 = Ok l2 -> (exists past2, later e0 u past l past2 l2) /\ l2 u = l u.
Proof.
  induction ixs as [|ix r IH]; intros past1 l1 l2 R Eu L S Nw P H.
  - cbn [run_ixs] in H. injection H as <-. split; [exists past1; exact R|exact Eu].
  - cbn [run_ixs] in H. apply bind_ok in H. destruct H as (l3 & E & H). destruct (P ix (or_introl eq_refl)) as [P1 P2].
    destruct (run_ix_later e0 e payer all ix u past l past1 l1 l3 R Eu L S P1 Nw P2 E) as [[past3 R3] Eu3].
    apply (IH past3 l3 l2 R3 Eu3 L S Nw); [|exact H]. intros x Hx. apply P. right. exact Hx.
Qed.
Lemma accepted_later e0 e fee t u past l l' :
  history e0 past l -> lawful e0 e -> possible t -> accepted e fee t l l' -> may_write e (tr_payer t) (tr_ixs t) u = false ->
  exists past', later e0 u past l past' l'.
Proof.
  intros H L [P1 P2] A Nw. apply send_cases in A. destruct A as [(_ & err & X)|(Wo & _ & _ & S & [(_ & err & X)|(_ & R)])]; [discriminate X|discriminate X|].
  assert (Np : u <> tr_payer t). { intro X. unfold may_write in Nw. rewrite X, pk_eqb_refl in Nw. discriminate Nw. }
  pose proof (charge_other (tr_payer t) fee l u Np) as Cu.
  destruct (run_ixs_later e0 e (tr_payer t) (tr_ixs t) u past l (tr_ixs t) (l :: past) (charge (tr_payer t) fee l) l') as [Q _].
  - apply (later_step e0 u past l past l AWorld); [apply later_refl; exact H| |exact Cu|reflexivity]. apply st_world. apply charge_world. exact Wo.
  - exact Cu.
  - exact L.
  - intros k Hk. apply P1. apply S. exact Hk.
  - exact Nw.
  - intros ix Hix. split; [exact Hix|]. exact (P2 ix Hix).
  - exact R.
  - exact Q.
Qed.

(** ** What a wrap leaves behind, account by account. *)
Lemma wrap_leaves : forall e0 e past l dec fee payer x u utp wtp source recipient owner n mu mw ts te tr w a esc t l1,
  reads_mints dec -> sg_signs payer = true -> history e0 past l -> same_curve e0 e -> spl_or_t22 wtp -> spl_or_t22 utp ->
  w = wrapped_mint_of e u wtp -> a = authority_of e w -> esc = escrow_of e u utp wtp ->
  derivable e (wrapped_mint_seeds u wtp) tw_id -> derivable e (wrapped_mint_authority_seeds w) tw_id -> derivable e (ata_seeds a u utp) ata_id ->
  js_wrap_asks e (sg_key payer) x u utp wtp source recipient owner n -> is_tw_pda owner = false ->
  wallet l (sg_key payer) -> token_account l source utp ts -> t_mint ts = u -> 0 < lamports l source -> n < two64 -> source <> esc -> transferable l utp u mu ->
  token_account l esc utp te -> mint_account l w wtp mw -> token_account l recipient wtp tr -> ~ native_mint u ->
  js_transaction payer (js_single_wrap e dec payer x l) = Ok t -> accepted e fee t l l1 ->
  possible t /\ may_write e (tr_payer t) (tr_ixs t) u = false /\
  exists f ts2 te2, fee_for mu (e_epoch e) n f /\ f <= n /\
    l1 source = mkAcc (lamports l source) (DTok ts2) utp /\ t_amount ts2 = t_amount ts - n /\ same_account ts ts2 /\ t_exts ts2 = t_exts ts /\ delegation_after ts ts2 owner n /\
    l1 esc = mkAcc (lamports l esc) (DTok te2) utp /\ same_account te te2 /\ t_amount te2 = t_amount te + (n - f) /\
    a_owner (l1 recipient) = wtp /\ lamports l1 recipient = lamports l recipient /\
    a_data (l1 recipient) = DTok (mkTok (t_mint tr) (t_owner tr) (t_amount tr + (n - f)) (t_delegate tr) (t_delegated tr) (t_state tr) (t_native tr) (t_close tr) (t_exts tr)) /\
    l1 w = mkAcc (lamports l w) (DMint (mkMint (m_auth mw) (m_supply mw + (n - f)) (m_decimals mw) (m_init mw) (m_freeze mw) (m_exts mw) (m_len mw))) wtp.
Proof.
  intros e0 e past l dec fee payer x u utp wtp source recipient owner n mu mw ts te tr w a esc t l1 Rd Y H C Tw Tu Ew Ea Ee D1 D2 D3 Ask Ow Wal Hs Ms Ls Lt Ne Hu He Hw Hr Nn Jt A.
  pose proof (js_wrap_eval e dec payer x u utp wtp source recipient owner n l ts w a esc Rd Y Ask Lt Hs Ms Ls Ew Ea Ee D1 D2 D3) as Ev. unfold js_transaction in Jt. rewrite Ev in Jt. cbn [bind] in Jt.
  pose proof (js_sign_inv payer _ t Jt) as (Tp & Ti & Tsg). cbn [map jx_ix] in Ti.
  set (ix := build_wrap tw_id recipient w a utp wtp source u esc owner [] n) in *.
  assert (Kow : sg_key (js_signer_of payer (jw_authority x)) = owner). { destruct Ask as (_ & _ & _ & _ & _ & _ & Ac). exact (proj1 (js_acting_signs payer owner (jw_authority x) Y Ac)). }
  pose proof Wal as (Wo & Wd & Wt & Wa). pose proof Hu as (Hu1 & _ & Nh).
  pose proof (wallet_not_token l esc utp te (sg_key payer) Wal Tu He) as Ne1. pose proof (wallet_not_token l source utp ts (sg_key payer) Wal Tu Hs) as Ns1.
  pose proof (wallet_not_token l recipient wtp tr (sg_key payer) Wal Tw Hr) as Nr1. pose proof (wallet_not_mint l w wtp mw (sg_key payer) Wal Tw Hw) as Nw1.
  pose proof (wallet_not_mint l u utp mu (sg_key payer) Wal Tu Hu1) as Nu1.
  assert (Um : forall k p z, token_account l k p z -> u <> k). { intros k p z (_ & Dz & _) X. rewrite <- X in Dz. destruct Hu1 as (_ & Q & _). rewrite Q in Dz. discriminate Dz. }
  split; [|split].
  - split.
    + intros k Hk. destruct (Tsg k Hk) as (s & Hin & <- & _). cbn [flat_map jx_signers app] in Hin. destruct Hin as [<-|[<-|[]]]; [exact Wt|rewrite Kow; exact Ow].
    + intros i Hi. rewrite Ti in Hi. destruct Hi as [<-|[]]. reflexivity.
  - rewrite Tp, Ti. unfold may_write. apply orb_false_iff. split.
    + destruct (pk_eqb u (sg_key payer)) eqn:Q; [|reflexivity]. apply pk_eqb_eq in Q. exfalso. exact (Nu1 Q).
    + cbn [existsb ix_accounts]. rewrite orb_false_r. destruct (is_wr (tx_metas ix) u) eqn:Q; [|reflexivity]. exfalso. apply is_wr_In in Q. destruct Q as (i & Ii & Ki & Wi).
      subst ix. unfold build_wrap in Ii. cbn [tx_metas app map] in Ii.
      destruct Ii as [<-|[<-|[<-|[<-|[<-|[<-|[<-|[<-|[<-|[]]]]]]]]]]; cbn [meta_w meta_r i_key i_writable] in Ki, Wi; try discriminate Wi; symmetry in Ki.
      * exact (Um recipient wtp tr Hr Ki). * rewrite Ew in Ki. exact (unwrapped_neq_wrapped e u wtp Ki). * exact (Um source utp ts Hs Ki). * exact (Um esc utp te He Ki).
  - destruct (accepted_one e fee t l l1 ix Ti eq_refl A) as [Pr _]. rewrite Tp in Pr. set (acc := raised e (sg_key payer) [TxTokenWrap ix] (tx_metas ix)) in *.
    remember (charge (sg_key payer) fee l) as l0 eqn:E0.
    pose proof (charge_other (sg_key payer) fee l esc Ne1) as Ce. pose proof (charge_other (sg_key payer) fee l source Ns1) as Cs.
    pose proof (charge_other (sg_key payer) fee l recipient Nr1) as Cr. pose proof (charge_other (sg_key payer) fee l w Nw1) as Cw. rewrite <- E0 in Ce, Cs, Cr, Cw.
    pose proof (charge_other (sg_key payer) fee l u Nu1) as Cu. rewrite <- E0 in Cu.
    destruct (C13_wrap e acc n l0 l1 recipient w a utp wtp source u esc owner Lt) as (mu' & mw' & ts' & te' & f & ts2 & te2 & _ & (B1 & B2 & B3 & B4 & B5 & B6 & B7 & B8) & (_ & F1 & F2 & _ & F4) & (S1 & S2 & S3 & S4 & S5) & (E1 & E2 & _ & E4 & _) & W1 & (tr' & R1 & R2 & R3 & R4) & _ & Fr).
    { exists []. unfold acc. rewrite raised_keys. reflexivity. }
    { exact Pr. } { exact Ne. }
    assert (mu' = mu). { destruct B1 as [B1 _]. destruct Hu1 as (_ & Hu1 & _). rewrite Cu, Hu1 in B1. injection B1 as ->. reflexivity. } subst mu'.
    assert (mw' = mw). { destruct B2 as (_ & B2 & _). destruct Hw as (_ & Hw & _). rewrite Cw, Hw in B2. injection B2 as ->. reflexivity. } subst mw'.
    assert (ts' = ts). { destruct B4 as (_ & B4 & _). destruct Hs as (_ & Hs & _). rewrite Cs, Hs in B4. injection B4 as ->. reflexivity. } subst ts'.
    assert (te' = te). { destruct B6 as (_ & B6 & _). destruct He as (_ & He & _). rewrite Ce, He in B6. injection B6 as ->. reflexivity. } subst te'.
    destruct (R4 (or_introl Nh)) as [R5 R6].
    assert (tr' = tr). { destruct R5 as (_ & R5 & _). destruct Hr as (_ & Hr & _). rewrite Cr, Hr in R5. injection R5 as ->. reflexivity. } subst tr'.
    assert (Z : native_part ts n = 0). { apply (no_native_part e0 l source utp ts n (history_inv _ _ _ H) Tu Hs). rewrite Ms. exact Nn. }
    rewrite Z, N.sub_0_r in S1. rewrite Z, N.add_0_r in E1. unfold lamports in *. rewrite Cs in S1. rewrite Ce in E1. rewrite Cw in W1. rewrite Cr in R6.
    exists f, ts2, te2. repeat (split; [eassumption|]). exact W1.
Qed.

(** ** C61: wrapping and unwrapping through the client is a round trip: whatever part of what the wrap gave is unwrapped
    again, each account ends with what it had, less what is still wrapped and the mint's own transfer fees. *)
Theorem C61_round_trip : forall e0 e past l dec fee payer x u utp wtp source recipient owner n mu mw ts te tr,
  reads_mints dec -> sg_signs payer = true ->
  history e0 past l -> ever (no_permanent_delegate u) past l -> lawful e0 e -> spl_or_t22 wtp -> spl_or_t22 utp -> ~ native_mint u ->
  let w := wrapped_mint_of e u wtp in let a := authority_of e w in let esc := escrow_of e u utp wtp in
  derivable e (wrapped_mint_seeds u wtp) tw_id -> derivable e (wrapped_mint_authority_seeds w) tw_id -> derivable e (ata_seeds a u utp) ata_id ->
  js_wrap_asks e (sg_key payer) x u utp wtp source recipient owner n ->
  wallet l owner -> helper_appends e l owner [] -> (forall l1, (forall m, a_data (l1 owner) <> DMultisig m) -> helper_finds e l1 owner []) -> helper_usual e ->
  wallet l (sg_key payer) -> fee + e_rent e 0 <= lamports l (sg_key payer) ->
  holder l utp u source owner ts -> open_account l source -> can_receive e l utp u source mu ts -> 0 < lamports l source -> 0 < n -> n <= t_amount ts -> n < two64 -> source <> esc ->
  transferable l utp u mu -> 0 < lamports l u ->
  token_account l esc utp te -> open_account l esc -> (ext_fee mu <> None -> In XtTransferFeeAmount (map acct_ext_type_of (t_exts te))) ->
  mint_account l w wtp mw -> holder l wtp w recipient owner tr -> 0 < lamports l recipient ->
  exists t l1 f, js_transaction payer (js_single_wrap e dec payer x l) = Ok t /\ accepted e fee t l l1 /\ fee_for mu (e_epoch e) n f /\ f <= n /\
    balance l1 source = balance l source - n /\ balance l1 esc = balance l esc + (n - f) /\
    balance l1 recipient = balance l recipient + (n - f) /\ supply l1 w = supply l w + (n - f) /\
    forall y k fee2, 0 < k -> k <= n - f -> js_unwrap_asks (sg_key payer) y u utp wtp recipient source owner k -> fee + fee2 + e_rent e 0 <= lamports l (sg_key payer) ->
      exists t2 l2 f2, js_transaction payer (js_single_unwrap e dec payer y l1) = Ok t2 /\ accepted e fee2 t2 l1 l2 /\ fee_for mu (e_epoch e) k f2 /\ f2 <= k /\
        balance l2 source + n = balance l source + (k - f2) /\ balance l2 esc + k = balance l esc + (n - f) /\
        balance l2 recipient + k = balance l recipient + (n - f) /\ supply l2 w + k = supply l w + (n - f) /\
        paid l l2 (sg_key payer) (fee + fee2) /\ only_changed l l2 [sg_key payer; source; esc; w; recipient].
Proof.
  intros e0 e past l dec fee payer x u utp wtp source recipient owner n mu mw ts te tr Rd Y H Ev La Tw Tu Nn w a esc D1 D2 D3 Ask Wow Hx Hf Hy Wal Fee
    Hs Op Rc Ls Pos Le Lt Ne Hu Lu He Oe Wit Hw Hr Lr.
  assert (C : same_curve e0 e) by (destruct La as [Q _]; exact Q).
  assert (Nm : forall m, a_data (l owner) <> DMultisig m). { intros m X. destruct Wow as (_ & Q & _). rewrite Q in X. discriminate X. }
  pose proof Hs as (Hs1 & Ms & So & Ss & Sd & Sg). pose proof Hr as (Hr1 & Mr & Ro & Sr & Rdl & Rg).
  assert (Ste : t_state te = Initialized) by (destruct He as (_ & Q & _); exact (proj1 (Oe te Q))).
  destruct (C52_wraps e0 e past l dec fee payer x u utp wtp source recipient owner n mu mw ts te tr Rd Y H C Tw Tu D1 D2 D3 Ask Nm Hx Wal Fee
    Hs Op Ls Pos Le Lt Ne Hu He Ste Wit Hw Hr1 Mr Sr (or_introl Ev) (fun X => False_ind _ (Nn X))) as (t & l1 & f & J & A & F1 & F2 & Bs & Be & Br & Sw & Pd & Oc).
  fold w in Sw. fold esc in Be, Oc. fold w in Oc.
  exists t, l1, f. split; [exact J|]. split; [exact A|]. split; [exact F1|]. split; [exact F2|]. split; [exact Bs|]. split; [exact Be|]. split; [exact Br|]. split; [exact Sw|].
  intros y k fee2 Pk Lk Ak Fee2.
  destruct (wrap_leaves e0 e past l dec fee payer x u utp wtp source recipient owner n mu mw ts te tr w a esc t l1 Rd Y H C Tw Tu eq_refl eq_refl eq_refl D1 D2 D3 Ask
     (proj1 (proj2 (proj2 Wow))) Wal Hs1 Ms Ls Lt Ne Hu He Hw Hr1 Nn J A) as (Ps & Nw & f' & ts2 & te2 & F1' & F2' & G1 & G2 & G3 & G4 & G5 & G6 & G7 & G8 & G9 & G10 & G11 & G12).
  destruct (accepted_later e0 e fee t u past l l1 H La Ps A Nw) as [past1 Lat].
  pose proof (later_ever e0 u past l past1 l1 Lat Ev) as Ev1. destruct Lat as [H1 _].
  assert (f' = f).
  { unfold balance in Be. destruct He as (_ & De & _). rewrite G6, De in Be. cbn [a_data] in Be. clear -Be G8 F2 F2'. lia. }
  subst f'. pose proof Hu as (Hu1 & Hu2 & Hu3).
  pose proof (wallet_not_token l esc utp te (sg_key payer) Wal Tu He) as Ne1. pose proof (wallet_not_token l source utp ts (sg_key payer) Wal Tu Hs1) as Ns1.
  pose proof (wallet_not_token l recipient wtp tr (sg_key payer) Wal Tw Hr1) as Nr1. pose proof (wallet_not_mint l w wtp mw (sg_key payer) Wal Tw Hw) as Nw1.
  pose proof (wallet_not_token l esc utp te owner Wow Tu He) as Ne2. pose proof (wallet_not_token l source utp ts owner Wow Tu Hs1) as Ns2.
  pose proof (wallet_not_token l recipient wtp tr owner Wow Tw Hr1) as Nr2. pose proof (wallet_not_mint l w wtp mw owner Wow Tw Hw) as Nw2.
  assert (Uk : l1 u = l u).
  { apply Oc. assert (Um : forall k p z, token_account l k p z -> k <> u). { intros k0 p z (_ & Dz & _) X. rewrite X in Dz. destruct Hu1 as (_ & Q & _). rewrite Q in Dz. discriminate Dz. }
    intros [Q|[Q|[Q|[Q|[Q|[]]]]]].
    - exact (wallet_not_mint l u utp mu (sg_key payer) Wal Tu Hu1 (eq_sym Q)).
    - exact (Um _ _ _ Hs1 Q). - exact (Um _ _ _ He Q). - exact (wrapped_neq_unwrapped e u wtp Q). - exact (Um _ _ _ Hr1 Q). }
  assert (Po : a_data (l1 owner) = DRaw [] /\ a_owner (l1 owner) = system_id).
  { destruct (pk_eqb owner (sg_key payer)) eqn:Q.
    - apply pk_eqb_eq in Q. destruct Pd as (_ & P1 & P2). rewrite Q, P1, P2. destruct Wal as (Q1 & Q2 & _). split; [exact Q2|exact Q1].
    - apply pk_eqb_neq in Q. rewrite (Oc owner); [destruct Wow as (Q1 & Q2 & _); split; [exact Q2|exact Q1]|].
      intros [X|[X|[X|[X|[X|[]]]]]]; [exact (Q (eq_sym X))|exact (Ns2 X)|exact (Ne2 X)|exact (Nw2 X)|exact (Nr2 X)]. }
  assert (Nm1 : forall m, a_data (l1 owner) <> DMultisig m). { intros m X. rewrite (proj1 Po) in X. discriminate X. }
  set (tr1 := mkTok (t_mint tr) (t_owner tr) (t_amount tr + (n - f)) (t_delegate tr) (t_delegated tr) (t_state tr) (t_native tr) (t_close tr) (t_exts tr)) in *.
  assert (Le1 : k <= t_amount tr1) by (cbn [t_amount tr1]; unfold tr1; cbn [t_amount]; clear -Lk; lia).
  assert (Lt1 : k < two64) by (clear -Lk Lt; lia).
  destruct (C53_unwraps e0 e past1 l1 dec fee2 payer y u utp wtp recipient source owner k mu tr1 ts2 Rd Y H1 Ev1 C Tw Tu D1 D2 D3 Ak Nm1 (Hf l1 Nm1) Hy)
    as (t2 & l2 & f2 & J2 & A2 & F3 & F4 & U1 & U2 & U3 & U4 & Pd2 & Oc2).
  - destruct Wal as (Q1 & Q2 & Q3 & Q4). destruct Pd as (_ & P1 & P2). unfold wallet. rewrite P1, P2. split; [exact Q1|split; [exact Q2|split; [exact Q3|exact Q4]]].
  - destruct Pd as (P0 & _). clear -P0 Fee2. lia.
  - split; [split; [exact G9|split; [exact G11|exact (proj2 (proj2 Hr1))]]|]. split; [exact Mr|]. split; [exact Ro|]. split; [exact Sr|]. split; [exact Rdl|exact Rg].
  - rewrite G10. exact Lr.
  - exact Pk.
  - exact Le1.
  - exact Lt1.
  - split; [|split; [exact Hu2|exact Hu3]]. unfold mint_account, mint_data in *. rewrite Uk. exact Hu1.
  - unfold lamports. rewrite Uk. exact Lu.
  - destruct Rc as (_ & _ & _ & Rm & Rf). destruct G3 as (X1 & X2 & X3 & X4 & X5 & X6 & X7). split; [split; [rewrite G1; reflexivity|split; [rewrite G1; reflexivity|]]|].
    + rewrite X3. exact (proj2 (proj2 Hs1)).
    + split; [rewrite X1; exact Ms|]. split; [rewrite X3; exact Ss|]. unfold memo_required. rewrite G4. split; [exact Rm|exact Rf].
  - unfold lamports. rewrite G1. exact Ls.
  - exact Ne.
  - intros z Dz. fold esc in Dz. rewrite G6 in Dz. injection Dz as <-. destruct G7 as (X1 & X2 & X3 & X4 & X5 & X6 & X7). rewrite X3, X6. destruct He as (_ & De & _). exact (Oe te De).
  - intro X. exfalso. exact (Nn X).
  - fold w in U2, Oc2. fold esc in U3, Oc2.
    exists t2, l2, f2. split; [exact J2|]. split; [exact A2|]. split; [exact F3|]. split; [exact F4|].
    assert (Bal : n <= balance l source). { unfold balance. destruct Hs1 as (_ & Q & _). rewrite Q. exact Le. }
    split; [rewrite U4, Bs; clear -Bal F4; lia|]. split; [rewrite U3, Be; clear -Lk; lia|]. split; [rewrite U1, Br; clear -Lk; lia|]. split; [rewrite U2, Sw; clear -Lk; lia|].
    split.
    + destruct Pd as (P1 & P2 & P3). destruct Pd2 as (P4 & P5 & P6). split; [clear -P1 P4; lia|]. rewrite P5, P6. split; [exact P2|exact P3].
    + intros z Hz. rewrite Oc2; [apply Oc; exact Hz|]. intros [X|[X|[X|[X|[X|[]]]]]]; apply Hz; [left|do 4 right; left|do 2 right; left|do 3 right; left|right; left]; exact X.
Qed.
Print Assumptions C61_round_trip.

Lemma fee_listed m : ext_fee m <> None -> exists c, In (MxTransferFee c) (m_exts m).
Proof.
  unfold ext_fee. induction (m_exts m) as [|x r IH]; intro Q; [exfalso; apply Q; reflexivity|].
  destruct x; cbn [find_map] in Q; try (destruct (IH Q) as [c' Hc]; exists c'; right; exact Hc). eexists. left. reflexivity.
Qed.
(** ** C61: from nothing: the client's createMint, createEscrowAccount and createTokenAccount, one after the other, lead to a state in which wrapping can
    begin: the wrapped mint is there, with nothing in circulation; the escrow is there, open; the new account is there, the owner's, empty. *)
Lemma set_up_aux : forall e0 e past l dec fee1 fee2 feea payer u utp wtp idempotent k owner mu size w b a esc cost rent,
  sg_signs payer = true ->
  history e0 past l -> lawful e0 e -> spl_or_t22 wtp -> spl_or_t22 utp -> addresses_exist e u wtp ->
  mint_account l u utp mu -> 0 < lamports l u -> ext_default_state mu = Initialized -> ~ In MxNonTransferable (m_exts mu) -> promised_size wtp size ->
  w = wrapped_mint_of e u wtp -> b = backpointer_of e w -> a = authority_of e w -> esc = escrow_of e u utp wtp ->
  derivable e (ata_seeds a u utp) ata_id ->
  unallocated l w -> unallocated l b -> unallocated l esc -> lamports l esc = 0 -> fresh_key l k -> sg_key payer <> k -> wallet l (sg_key payer) ->
  cost = (e_rent e size - lamports l w) + (e_rent e 32 - lamports l b) -> rent = N.max 1 (e_rent e (tok_space (init_account_exts utp mu true))) ->
  e_rent e size < two64 -> e_rent e 32 < two64 -> lamports l w < two64 -> lamports l b < two64 -> rent < two64 -> 0 < e_rent e 165 -> e_rent e 165 < two64 ->
  fee1 + cost + (fee2 + rent) + (feea + e_rent e 165) + e_rent e 0 <= lamports l (sg_key payer) ->
  exists t1 l1 t2 l2 ixs l3 past3 mw te tr,
    js_transaction payer (js_create_mint_helper e payer u wtp idempotent l) = Ok t1 /\ accepted e fee1 t1 l l1 /\
    js_opt_transaction payer (js_create_escrow e dec payer u wtp l1) = Ok (Some t2) /\ accepted e fee2 t2 l1 l2 /\
    js_create_token_account e (sg_key payer) k w owner wtp = Ok ixs /\ send_setup e feea (sg_key payer) ixs l2 = (l3, Ok tt) /\
    later e0 u past l past3 l3 /\
    (mint_account l3 w wtp mw /\ m_supply mw = 0) /\
    (token_account l3 esc utp te /\ t_mint te = u /\ t_owner te = a /\ open_account l3 esc /\ (ext_fee mu <> None -> In XtTransferFeeAmount (map acct_ext_type_of (t_exts te))) /\ (~ native_mint u -> t_amount te = 0)) /\
    (token_account l3 k wtp tr /\ t_mint tr = w /\ t_owner tr = owner /\ t_state tr = Initialized /\ t_delegate tr = None /\ t_exts tr = [] /\ t_amount tr = 0 /\ 0 < lamports l3 k) /\
    paid l l3 (sg_key payer) (fee1 + cost + (fee2 + rent) + (feea + e_rent e 165)) /\ only_changed l l3 [sg_key payer; w; b; esc; k].
Proof.
  intros e0 e past l dec fee1 fee2 feea payer u utp wtp idempotent k owner mu size w b a esc cost rent Y H La Tw Tu (D1 & D2 & D4) Hu Lu Ds Nt Sz Ew Eb Ea Ee D3 Uw Ub Ue Le Fk Nk Wal Ec Er B1 B2 B3 B4 B5 B6 B7 Fee.
  assert (C : same_curve e0 e) by (destruct La as [Q _]; exact Q).
  pose proof Wal as (Wo & Wd & Wt & Wa). pose proof Hu as (Hu1 & Hu2).
  assert (Eu : spl_or_t22 (a_owner (l u))) by (rewrite Hu1; exact Tu).
  (* createMint *)
  pose proof (C50_creates e fee1 payer u wtp idempotent l mu size Y Tw (conj D1 (conj D2 D4)) Eu Hu2 Sz) as S1. cbv zeta in S1. rewrite <- Ew in S1. rewrite <- Eb in S1. rewrite <- Ec in S1.
  destruct S1 as (t1 & l1 & exts & J1 & A1 & X1 & W1 & K1 & P1 & O1); [exact Uw|exact Ub|exact Wal|exact B1|exact B2|exact B3|exact B4|lia|].
  assert (Nup : u <> sg_key payer) by exact (wallet_not_mint l u utp mu (sg_key payer) Wal Tu Hu).
  assert (Nuw : u <> w) by (rewrite Ew; apply unwrapped_neq_wrapped).
  assert (Nub : u <> b). { intro X. destruct Ub as [Q _]. rewrite <- X in Q. destruct Hu2 as [Q2 _]. rewrite Q in Q2. discriminate Q2. }
  assert (Nue : u <> esc). { intro X. destruct Ue as [Q _]. rewrite <- X in Q. destruct Hu2 as [Q2 _]. rewrite Q in Q2. discriminate Q2. }
  assert (Nuk : u <> k). { intro X. destruct Fk as (_ & [Q _] & _). rewrite <- X in Q. destruct Hu2 as [Q2 _]. rewrite Q in Q2. discriminate Q2. }
  assert (Iw : is_tw_pda w = true) by (rewrite Ew; apply is_tw_pda_wrapped).
  assert (Ib : is_tw_pda b = true) by (rewrite Eb; apply is_tw_pda_backpointer).
  assert (Ie : is_tw_pda esc = false) by (rewrite Ee; apply is_tw_pda_escrow).
  assert (Nep : sg_key payer <> esc). { rewrite Ee. unfold escrow_of. exact (ata_not_tw_wallet l (sg_key payer) e (authority_of e (wrapped_mint_of e u wtp)) u utp Wal Tu). }
  assert (Nwe : w <> esc) by (intro X; rewrite X, Ie in Iw; discriminate Iw).
  assert (Nbe : b <> esc) by (intro X; rewrite X, Ie in Ib; discriminate Ib).
  assert (Nwp : w <> sg_key payer) by (intro X; rewrite X, Wt in Iw; discriminate Iw).
  assert (Nbp : b <> sg_key payer) by (intro X; rewrite X, Wt in Ib; discriminate Ib).
  assert (Ik : is_tw_pda k = false) by (destruct Fk as (_ & _ & Q & _); exact Q).
  assert (Nwk : w <> k) by (intro X; rewrite X, Ik in Iw; discriminate Iw).
  assert (Nbk : b <> k) by (intro X; rewrite X, Ik in Ib; discriminate Ib).
  assert (Nke : k <> esc). { intro X. destruct Fk as (_ & _ & _ & Q & _). apply (ata_not_tw_wallet (upd l k (mkAcc 0 (DRaw []) system_id)) k e (authority_of e (wrapped_mint_of e u wtp)) u utp); [|exact Tu|rewrite X; unfold escrow_of in Ee; exact Ee].
    unfold wallet. rewrite upd_same. split; [reflexivity|split; [reflexivity|split; [exact Ik|exact Q]]]. }

  assert (Ps1 : possible t1 /\ may_write e (tr_payer t1) (tr_ixs t1) u = false).
  { rewrite (C50_same e payer u wtp idempotent l Tw Y) in J1. rewrite (cli_create_mint_eval e (sg_key payer) u wtp idempotent l size Tw D1) in J1; [|exact D4|exact Sz].
    rewrite <- Ew, <- Eb in J1. injection J1 as <-. cbn [tr_payer tr_ixs tr_signed]. split.
    - split; cbn [tr_signed tr_ixs]; [intros q [<-|[]]; exact Wt|]. intros ix Hix. unfold fund in Hix.
      apply in_app_or in Hix. destruct Hix as [Hix|Hix]; [destruct (_ <? _) in Hix; [destruct Hix as [<-|[]]; exact I|destruct Hix]|].
      apply in_app_or in Hix. destruct Hix as [Hix|Hix]; [destruct (_ <? _) in Hix; [destruct Hix as [<-|[]]; exact I|destruct Hix]|].
      destruct Hix as [<-|[]]. reflexivity.
    - apply not_true_is_false. intro Q. unfold may_write in Q. apply orb_true_iff in Q. destruct Q as [Q|Q]; [apply pk_eqb_eq in Q; exact (Nup Q)|].
      apply existsb_exists in Q. destruct Q as (ix & Hix & Q). apply is_wr_In in Q. destruct Q as (i & Ii & Ki & Wi). unfold fund in Hix.
      assert (Z : forall to n, In i (ix_accounts e (TxTransfer (sg_key payer) to n)) -> u <> to -> False).
      { intros to n [<-|[<-|[]]] Nto; cbn [meta_w i_key] in Ki; [exact (Nup (eq_sym Ki))|exact (Nto (eq_sym Ki))]. }
      apply in_app_or in Hix. destruct Hix as [Hix|Hix]; [destruct (_ <? _) in Hix; [destruct Hix as [<-|[]]; exact (Z _ _ Ii Nuw)|destruct Hix]|].
      apply in_app_or in Hix. destruct Hix as [Hix|Hix]; [destruct (_ <? _) in Hix; [destruct Hix as [<-|[]]; exact (Z _ _ Ii Nub)|destruct Hix]|].
      destruct Hix as [<-|[]]. cbn [ix_accounts build_create_mint tx_metas] in Ii.
      destruct Ii as [<-|[<-|[<-|[<-|[<-|[]]]]]]; cbn [meta_w meta_r i_key i_writable] in Ki, Wi; try discriminate Wi; [exact (Nuw (eq_sym Ki))|exact (Nub (eq_sym Ki))]. }
  destruct Ps1 as [Ps1 Nw1]. destruct (accepted_later e0 e fee1 t1 u past l l1 H La Ps1 A1 Nw1) as [past1 L1]. pose proof L1 as [H1 _].
  assert (U1 : l1 u = l u) by (apply O1; intros [X|[X|[X|[]]]]; [exact (Nup (eq_sym X))|exact (Nuw (eq_sym X))|exact (Nub (eq_sym X))]).
  assert (E1 : l1 esc = l esc) by (apply O1; intros [X|[X|[X|[]]]]; [exact (Nep X)|exact (Nwe X)|exact (Nbe X)]).
  assert (Hu_1 : mint_account l1 u utp mu) by (unfold mint_account, mint_data; rewrite U1; exact Hu).
  assert (Wal1 : wallet l1 (sg_key payer)). { destruct P1 as (_ & Q1 & Q2). unfold wallet. rewrite Q1, Q2. exact Wal. }
  assert (Lu1 : 0 < lamports l1 u) by (unfold lamports; rewrite U1; exact Lu).
  assert (Ue1 : unallocated l1 esc) by (unfold unallocated; rewrite E1; exact Ue).
  assert (Le1 : lamports l1 esc = 0) by (unfold lamports; rewrite E1; exact Le).
  assert (D2' : derivable e (wrapped_mint_authority_seeds w) tw_id) by (rewrite Ew; exact D2).
  (* createEscrowAccount *)
  pose proof (C51_creates e0 e dec fee2 payer u utp wtp l1 mu Y (ex_intro _ past1 H1) C Tw Tu Hu_1 Lu1) as S2. cbv zeta in S2. rewrite <- Ew in S2. rewrite <- Ea in S2. rewrite <- Ee in S2. rewrite <- Er in S2.
  destruct S2 as (t2 & l2 & te & J2 & A2 & K2 & M2 & Ow2 & Dl2 & _ & Hl2 & Am2 & St2 & P2 & O2); [exact D1|exact D2'|exact D3|exact Ue1|exact Le1|exact Wal1|exact B5| |].
  { destruct P1 as (Q & _). clear -Q Fee. lia. }
  assert (Ps2 : possible t2 /\ may_write e (tr_payer t2) (tr_ixs t2) u = false).
  { pose proof (C51_same e dec payer u utp wtp false l1 mu Y Tw Tu Hu_1 Lu1) as S. cbv zeta in S. rewrite <- Ew in S. rewrite <- Ea in S. rewrite <- Ee in S. specialize (S D1 D2' D3 Le1). rewrite S in J2.
    pose proof (cli_create_escrow_eval e (sg_key payer) u utp wtp false l1 mu Tw Tu Hu_1 Lu1 D1) as V. rewrite <- Ew in V. rewrite <- Ea in V. rewrite <- Ee in V. specialize (V D2' D3).
    rewrite V in J2. rewrite Le1 in J2. cbn [N.eqb] in J2. injection J2 as <-. cbn [tr_payer tr_ixs tr_signed]. split.
    - split; cbn [tr_signed tr_ixs]; [intros q [<-|[]]; exact Wt|]. intros ix [<-|[]]. exact Tu.
    - apply not_true_is_false. intro Q. unfold may_write in Q. apply orb_true_iff in Q. destruct Q as [Q|Q]; [apply pk_eqb_eq in Q; exact (Nup Q)|].
      cbn [existsb] in Q. rewrite orb_false_r in Q. apply is_wr_In in Q. destruct Q as (i & Ii & Ki & Wi). cbn [ix_accounts] in Ii.
      destruct Ii as [<-|[<-|Ii]]; cbn [meta_w i_key] in Ki; [exact (Nup (eq_sym Ki))| |].
      + apply Nue. transitivity (ata_of e a u utp); [symmetry; exact Ki|]. rewrite Ee, Ea, Ew. reflexivity.
      + repeat (destruct Ii as [<-|Ii]; [discriminate Wi|]). destruct Ii. }
  destruct Ps2 as [Ps2 Nw2]. destruct (accepted_later e0 e fee2 t2 u past1 l1 l2 H1 La Ps2 A2 Nw2) as [past2 L2]. pose proof L2 as [H2 _].
  assert (U2 : l2 u = l1 u) by (apply O2; intros [X|[X|[]]]; [exact (Nup (eq_sym X))|exact (Nue (eq_sym X))]).
  assert (W2 : l2 w = l1 w) by (apply O2; intros [X|[X|[]]]; [exact (Nwp (eq_sym X))|exact (Nwe (eq_sym X))]).
  assert (Wal2 : wallet l2 (sg_key payer)). { destruct P2 as (_ & Q1 & Q2). unfold wallet. rewrite Q1, Q2. exact Wal1. }
  assert (F2 : l2 k = l k). { rewrite O2 by (intros [X|[X|[]]]; [exact (Nk X)|exact (Nke (eq_sym X))]). apply O1. intros [X|[X|[X|[]]]]; [exact (Nk X)|exact (Nwk X)|exact (Nbk X)]. }
  assert (Fk2 : fresh_key l2 k) by (unfold fresh_key, lamports, unallocated; rewrite F2; exact Fk).
  set (mw := mkMint (Some (authority_of e w)) 0 (m_decimals mu) true (m_freeze mu) exts size) in *.
  assert (Mw2 : mint_account l2 w wtp mw) by (unfold mint_account, mint_data; rewrite W2, W1; split; [reflexivity|split; reflexivity]).
  assert (Nd : ~ demanding mw /\ ext_default_state mw = Initialized).
  { unfold mw, demanding, ext_default_state. cbn [m_exts]. destruct X1 as [[_ ->]|[_ ->]].
    - split; [intros (x & [] & _)|reflexivity].
    - split; [|reflexivity]. intros (x & Hx & Q). destruct Hx as [<-|[<-|[]]]; destruct Q as [[c Z]|[Z|[(a' & b' & Z)|(a' & b' & Z)]]]; discriminate Z. }
  (* createTokenAccount *)
  destruct (setup_steps e0 e feea l2 (sg_key payer) k w owner wtp mw (ex_intro _ past2 H2) Tw Mw2 (proj1 Nd) Wal2 Nk Fk2)
    as (ixs & lm & l3 & tr & J3 & A3 & K3 & N3 & P3 & O3 & Om & S3); [|exact B7|].
  { destruct P1 as (Q1 & _). destruct P2 as (Q2 & _). clear -Q1 Q2 Fee. lia. }
  destruct (S3 La) as (S30 & S31 & S32). destruct N3 as (T1 & T2 & T3 & T4 & T5 & T6 & T7). rewrite (proj2 Nd) in T6.
  assert (Um : lm u = l2 u) by (apply Om; intros [X|[X|[]]]; [exact (Nup (eq_sym X))|exact (Nuk (eq_sym X))]).
  assert (U3 : l3 u = l2 u) by (apply O3; intros [X|[X|[]]]; [exact (Nup (eq_sym X))|exact (Nuk (eq_sym X))]).
  set (lc := charge (sg_key payer) feea l2) in *. assert (Uc : lc u = l2 u) by (unfold lc; apply charge_other; exact Nup).
  assert (L3 : later e0 u past l (lm :: lc :: l2 :: past2) l3).
  { pose proof (later_trans _ _ _ _ _ _ _ _ L1 L2 U1) as L12. assert (U02 : l2 u = l u) by (rewrite U2; exact U1).
    assert (U0c : lc u = l u) by (rewrite Uc; exact U02). assert (Umc : lm u = lc u) by (rewrite Uc; exact Um).
    apply (later_step _ _ _ _ _ lm _ l3 (later_step _ _ _ _ _ lc _ lm (later_step _ _ _ _ _ l2 _ lc L12 S30 Uc U02) S31 Umc U0c) S32); [rewrite Um; exact U3|rewrite Um; exact U02]. }
  assert (W3 : l3 w = l2 w) by (apply O3; intros [X|[X|[]]]; [exact (Nwp (eq_sym X))|exact (Nwk (eq_sym X))]).
  assert (E3 : l3 esc = l2 esc) by (apply O3; intros [X|[X|[]]]; [exact (Nep X)|exact (Nke X)]).
  exists t1, l1, t2, l2, ixs, l3, (lm :: lc :: l2 :: past2), mw, te, tr.
  split; [exact J1|]. split; [exact A1|]. split; [exact J2|]. split; [exact A2|]. split; [exact J3|]. split; [exact A3|]. split; [exact L3|].
  split. { split; [|reflexivity]. unfold mint_account, mint_data. rewrite W3. exact Mw2. }
  assert (Xe : (ext_fee mu <> None -> In XtTransferFeeAmount (map acct_ext_type_of (t_exts te))) /\ ~ In XtNonTransferableAccount (map acct_ext_type_of (t_exts te))).
  { destruct Tu as [-> | ->].
    - assert (Xm : m_exts mu = []). { pose proof (history_inv _ _ _ H) as Iv. assert (T' : token_program (a_owner (l u))) by (rewrite Hu1; left; reflexivity). destruct (inv_mint _ _ _ _ Iv T' (proj1 Hu2)) as (_ & _ & _ & Q & _). exact (Q Hu1). }
      assert (Xt : t_exts te = []). { pose proof (history_inv _ _ _ H2) as Iv. assert (T' : token_program (a_owner (l2 esc))) by (rewrite K2; left; reflexivity). assert (De : a_data (l2 esc) = DTok te) by (rewrite K2; reflexivity).
        destruct (inv_tok _ _ _ _ Iv T' De) as (_ & Q & _). apply Q. rewrite K2. reflexivity. }
      rewrite Xt. split; [intro Q; exfalso; apply Q; unfold ext_fee; rewrite Xm; reflexivity|intros []].
    - specialize (Hl2 eq_refl). split.
      + intro Q. apply Hl2. left. destruct (fee_listed _ Q) as [c Ix]. exact (demands_fee mu c Ix).
      + intro Q. apply Hl2 in Q. destruct Q as [Q|Q]; [|discriminate Q]. inversion Q. contradiction. }
  split.
  { assert (De : l3 esc = mkAcc rent (DTok te) utp) by (rewrite E3; exact K2).
    split; [split; [rewrite De; reflexivity|split; [rewrite De; reflexivity|rewrite St2, Ds; discriminate]]|]. split; [exact M2|]. split; [exact Ow2|].
    split. { intros z Dz. rewrite De in Dz. injection Dz as <-. split; [rewrite St2; exact Ds|exact (proj2 Xe)]. }
    split; [exact (proj1 Xe)|exact Am2]. }
  split.
  { split; [split; [rewrite K3; reflexivity|split; [rewrite K3; reflexivity|rewrite T6; discriminate]]|]. split; [exact T1|]. split; [exact T2|]. split; [exact T6|]. split; [exact T4|]. split; [exact T7|].
    split; [exact T3|]. unfold lamports. rewrite K3. exact B6. }
  split.
  - destruct P1 as (Q1 & Q2 & Q3). destruct P2 as (Q4 & Q5 & Q6). destruct P3 as (Q7 & Q8 & Q9). split; [clear -Q1 Q4 Q7; lia|]. rewrite Q8, Q9, Q5, Q6. split; [exact Q2|exact Q3].
  - intros q Hq. rewrite O3 by (intros [X|[X|[]]]; apply Hq; [left; exact X|do 4 right; left; exact X]).
    rewrite O2 by (intros [X|[X|[]]]; apply Hq; [left; exact X|do 3 right; left; exact X]).
    apply O1. intros [X|[X|[X|[]]]]; apply Hq; [left; exact X|right; left; exact X|do 2 right; left; exact X].
Qed.
Theorem C61_set_up : forall e0 e past l dec fee1 fee2 feea payer u utp wtp idempotent k owner mu size,
  sg_signs payer = true -> history e0 past l -> lawful e0 e -> spl_or_t22 wtp -> spl_or_t22 utp ->
  let w := wrapped_mint_of e u wtp in let b := backpointer_of e w in let a := authority_of e w in let esc := escrow_of e u utp wtp in
  addresses_exist e u wtp -> derivable e (ata_seeds a u utp) ata_id ->
  mint_account l u utp mu -> 0 < lamports l u -> ext_default_state mu = Initialized -> ~ In MxNonTransferable (m_exts mu) -> promised_size wtp size ->
  unallocated l w -> unallocated l b -> unallocated l esc -> lamports l esc = 0 -> fresh_key l k -> sg_key payer <> k -> wallet l (sg_key payer) ->
  let cost := (e_rent e size - lamports l w) + (e_rent e 32 - lamports l b) in let rent := N.max 1 (e_rent e (tok_space (init_account_exts utp mu true))) in
  e_rent e size < two64 -> e_rent e 32 < two64 -> lamports l w < two64 -> lamports l b < two64 -> rent < two64 -> 0 < e_rent e 165 -> e_rent e 165 < two64 ->
  fee1 + cost + (fee2 + rent) + (feea + e_rent e 165) + e_rent e 0 <= lamports l (sg_key payer) ->
  exists t1 l1 t2 l2 ixs l3 mw te tr,
    js_transaction payer (js_create_mint_helper e payer u wtp idempotent l) = Ok t1 /\ accepted e fee1 t1 l l1 /\
    js_opt_transaction payer (js_create_escrow e dec payer u wtp l1) = Ok (Some t2) /\ accepted e fee2 t2 l1 l2 /\
    js_create_token_account e (sg_key payer) k w owner wtp = Ok ixs /\ send_setup e feea (sg_key payer) ixs l2 = (l3, Ok tt) /\
    reachable e0 l3 /\
    (mint_account l3 w wtp mw /\ m_supply mw = 0) /\
    (token_account l3 esc utp te /\ t_mint te = u /\ t_owner te = a /\ open_account l3 esc /\ (~ native_mint u -> t_amount te = 0)) /\
    (token_account l3 k wtp tr /\ t_mint tr = w /\ t_owner tr = owner /\ t_state tr = Initialized /\ t_amount tr = 0) /\
    paid l l3 (sg_key payer) (fee1 + cost + (fee2 + rent) + (feea + e_rent e 165)) /\ only_changed l l3 [sg_key payer; w; b; esc; k].
Proof.
  intros e0 e past l dec fee1 fee2 feea payer u utp wtp idempotent k owner mu size Y H La Tw Tu w b a esc Ad D3 Hu Lu Ds Nt Sz Uw Ub Ue Le Fk Nk Wal cost rent B1 B2 B3 B4 B5 B6 B7 Fee.
  destruct (set_up_aux e0 e past l dec fee1 fee2 feea payer u utp wtp idempotent k owner mu size w b a esc cost rent Y H La Tw Tu Ad Hu Lu Ds Nt Sz eq_refl eq_refl eq_refl eq_refl D3
    Uw Ub Ue Le Fk Nk Wal eq_refl eq_refl B1 B2 B3 B4 B5 B6 B7 Fee)
    as (t1 & l1 & t2 & l2 & ixs & l3 & past3 & mw & te & tr & J1 & A1 & J2 & A2 & J3 & A3 & [H3 _] & M & (E1 & E2 & E3 & E4 & _ & E5) & (R1 & R2 & R3 & R4 & _ & _ & R5 & _) & P & O).
  exists t1, l1, t2, l2, ixs, l3, mw, te, tr. split; [exact J1|]. split; [exact A1|]. split; [exact J2|]. split; [exact A2|]. split; [exact J3|]. split; [exact A3|]. split; [exists past3; exact H3|].
  split; [exact M|]. split; [split; [exact E1|split; [exact E2|split; [exact E3|split; [exact E4|exact E5]]]]|]. split; [split; [exact R1|split; [exact R2|split; [exact R3|split; [exact R4|exact R5]]]]|].
  split; [exact P|exact O].
Qed.
Print Assumptions C61_set_up.

(** C61: the example's whole program: set up, wrap [n], unwrap [q] of what was received.  In the end the wrapped supply, the escrow and the new account agree on
    what is still wrapped, and the source has the rest but for the mint's own fees. *)
Lemma life_aux : forall e0 e past l dec fee1 fee2 feea fee3 payer x u utp wtp idempotent k source owner n mu ts size w b a esc cost rent,
  reads_mints dec -> sg_signs payer = true ->
  history e0 past l -> ever (no_permanent_delegate u) past l -> lawful e0 e -> spl_or_t22 wtp -> spl_or_t22 utp -> ~ native_mint u ->
  w = wrapped_mint_of e u wtp -> b = backpointer_of e w -> a = authority_of e w -> esc = escrow_of e u utp wtp ->
  addresses_exist e u wtp -> derivable e (ata_seeds a u utp) ata_id ->
  transferable l utp u mu -> 0 < lamports l u -> ext_default_state mu = Initialized -> ~ In MxNonTransferable (m_exts mu) -> promised_size wtp size ->
  unallocated l w -> unallocated l b -> unallocated l esc -> lamports l esc = 0 -> fresh_key l k -> sg_key payer <> k -> owner <> k -> wallet l (sg_key payer) -> wallet l owner ->
  (forall l1, (forall m, a_data (l1 owner) <> DMultisig m) -> helper_appends e l1 owner [] /\ helper_finds e l1 owner []) -> helper_usual e ->
  holder l utp u source owner ts -> open_account l source -> can_receive e l utp u source mu ts -> 0 < lamports l source -> 0 < n -> n <= t_amount ts -> n < two64 ->
  js_wrap_asks e (sg_key payer) x u utp wtp source k owner n ->
  cost = (e_rent e size - lamports l w) + (e_rent e 32 - lamports l b) -> rent = N.max 1 (e_rent e (tok_space (init_account_exts utp mu true))) ->
  e_rent e size < two64 -> e_rent e 32 < two64 -> lamports l w < two64 -> lamports l b < two64 -> rent < two64 -> 0 < e_rent e 165 -> e_rent e 165 < two64 ->
  fee1 + cost + (fee2 + rent) + (feea + e_rent e 165) + fee3 + e_rent e 0 <= lamports l (sg_key payer) ->
  exists t1 l1 t2 l2 ixs l3 t4 l4 f,
    js_transaction payer (js_create_mint_helper e payer u wtp idempotent l) = Ok t1 /\ accepted e fee1 t1 l l1 /\
    js_opt_transaction payer (js_create_escrow e dec payer u wtp l1) = Ok (Some t2) /\ accepted e fee2 t2 l1 l2 /\
    js_create_token_account e (sg_key payer) k w owner wtp = Ok ixs /\ send_setup e feea (sg_key payer) ixs l2 = (l3, Ok tt) /\
    js_transaction payer (js_single_wrap e dec payer x l3) = Ok t4 /\ accepted e fee3 t4 l3 l4 /\ fee_for mu (e_epoch e) n f /\ f <= n /\
    balance l4 source + n = balance l source /\ balance l4 esc = n - f /\ balance l4 k = n - f /\ supply l4 w = n - f /\
    forall y q fee4, 0 < q -> q <= n - f -> js_unwrap_asks (sg_key payer) y u utp wtp k source owner q ->
      fee1 + cost + (fee2 + rent) + (feea + e_rent e 165) + (fee3 + fee4) + e_rent e 0 <= lamports l (sg_key payer) ->
      exists t5 l5 f2, js_transaction payer (js_single_unwrap e dec payer y l4) = Ok t5 /\ accepted e fee4 t5 l4 l5 /\ fee_for mu (e_epoch e) q f2 /\ f2 <= q /\
        balance l5 source + n = balance l source + (q - f2) /\ balance l5 esc = n - f - q /\ balance l5 k = n - f - q /\ supply l5 w = n - f - q /\
        paid l l5 (sg_key payer) (fee1 + cost + (fee2 + rent) + (feea + e_rent e 165) + (fee3 + fee4)) /\ only_changed l l5 [sg_key payer; source; w; b; esc; k].
Proof.
  intros e0 e past l dec fee1 fee2 feea fee3 payer x u utp wtp idempotent k source owner n mu ts size w b a esc cost rent Rd Y H Ev La Tw Tu Nn Ew Eb Ea Ee Ad D3 Hu Lu Ds Nt Sz Uw Ub Ue Le Fk Nk Nok Wal Wow Hh Hy
    Hs Op Rc Ls Pos Ln Lt Ask Ec Er B1 B2 B3 B4 B5 B6 B7 Fee.
  pose proof Hu as (Hu1 & Hu2 & Hu3). pose proof Hs as (Hs1 & Hs2).
  assert (Fee' : fee1 + cost + (fee2 + rent) + (feea + e_rent e 165) + e_rent e 0 <= lamports l (sg_key payer)) by (clear -Fee; lia).
  destruct (set_up_aux e0 e past l dec fee1 fee2 feea payer u utp wtp idempotent k owner mu size w b a esc cost rent Y H La Tw Tu Ad Hu1 Lu Ds Nt Sz Ew Eb Ea Ee D3
    Uw Ub Ue Le Fk Nk Wal Ec Er B1 B2 B3 B4 B5 B6 B7 Fee')
    as (t1 & l1 & t2 & l2 & ixs & l3 & past3 & mw & te & tr & J1 & A1 & J2 & A2 & J3 & A3 & L3 & (M1 & M2) & (E1 & E2 & E3 & E4 & E6 & E5) & (R1 & R2 & R3 & R4 & R6 & R7 & R5 & R8) & P & O).
  pose proof (later_ever _ _ _ _ _ _ L3 Ev) as Ev3. pose proof L3 as [H3 _].
  assert (Iw : is_tw_pda w = true) by (rewrite Ew; apply is_tw_pda_wrapped).
  assert (Ib : is_tw_pda b = true) by (rewrite Eb; apply is_tw_pda_backpointer).
  assert (Te : forall z, is_ata z = false -> z <> esc).
  { intros z Az X. assert (Wz : wallet (upd l z (mkAcc 0 (DRaw []) system_id)) z).
    { unfold wallet. rewrite upd_same. split; [reflexivity|split; [reflexivity|split; [rewrite X, Ee; apply is_tw_pda_escrow|exact Az]]]. }
    unfold escrow_of in Ee. rewrite Ee in X. exact (ata_not_tw_wallet _ z e (authority_of e (wrapped_mint_of e u wtp)) u utp Wz Tu X). }
  assert (Dn : forall z d, a_data (l z) = d -> d <> DRaw [] -> z <> sg_key payer /\ z <> w /\ z <> b /\ z <> esc /\ z <> k).
  { intros z d Dz Nz. destruct Wal as (_ & Q1 & _). destruct Uw as [Q2 _]. destruct Ub as [Q3 _]. destruct Ue as [Q4 _]. destruct Fk as (_ & [Q5 _] & _).
    repeat split; intro X; apply Nz; rewrite <- Dz, X; [exact Q1|exact Q2|exact Q3|exact Q4|exact Q5]. }
  assert (Kept : forall z d, a_data (l z) = d -> d <> DRaw [] -> l3 z = l z).
  { intros z d Dz Nz. destruct (Dn z d Dz Nz) as (Z1 & Z2 & Z3 & Z4 & Z5). apply O. intros [X|[X|[X|[X|[X|[]]]]]]; symmetry in X; [exact (Z1 X)|exact (Z2 X)|exact (Z3 X)|exact (Z4 X)|exact (Z5 X)]. }
  assert (Us : l3 source = l source) by (apply (Kept source (DTok ts)); [exact (proj1 (proj2 Hs1))|discriminate]).
  assert (Uu : l3 u = l u) by (apply (Kept u (DMint mu)); [exact (proj1 (proj2 Hu1))|discriminate]).
  assert (Nse : source <> esc) by (apply (Dn source (DTok ts)); [exact (proj1 (proj2 Hs1))|discriminate]).
  assert (Wal3 : wallet l3 (sg_key payer)). { destruct P as (_ & Q1 & Q2). unfold wallet. rewrite Q1, Q2. exact Wal. }
  assert (Wow3 : wallet l3 owner).
  { destruct (pk_eqb owner (sg_key payer)) eqn:Q; [apply pk_eqb_eq in Q; rewrite Q; exact Wal3|]. apply pk_eqb_neq in Q.
    unfold wallet. rewrite (O owner); [exact Wow|]. pose proof Wow as (_ & _ & Q3 & Q4).
    intros [X|[X|[X|[X|[X|[]]]]]]; [exact (Q (eq_sym X))|rewrite X, Q3 in Iw; discriminate Iw|rewrite X, Q3 in Ib; discriminate Ib|exact (Te owner Q4 (eq_sym X))|exact (Nok (eq_sym X))]. }
  assert (Nm3 : forall m, a_data (l3 owner) <> DMultisig m). { intros m X. destruct Wow3 as (_ & Q & _). rewrite Q in X. discriminate X. }
  pose proof (C61_round_trip e0 e past3 l3 dec fee3 payer x u utp wtp source k owner n mu mw ts te tr Rd Y H3 Ev3 La Tw Tu Nn) as RT. cbv zeta in RT.
  rewrite <- Ew in RT. rewrite <- Ea in RT. rewrite <- Ee in RT.
  destruct Ad as (D1 & D2 & D4).
  destruct RT as (t4 & l4 & f & J4 & A4 & F1 & F2 & G1 & G2 & G3 & G4 & RT).
  - exact D1.
  - rewrite Ew. exact D2.
  - exact D3.
  - exact Ask.
  - exact Wow3.
  - exact (proj1 (Hh l3 Nm3)).
  - intros z Hz. exact (proj2 (Hh z Hz)).
  - exact Hy.
  - exact Wal3.
  - destruct P as (Q & _). clear -Q Fee. lia.
  - unfold holder, token_account in *. rewrite Us. exact Hs.
  - unfold open_account in *. rewrite Us. exact Op.
  - unfold can_receive, token_account in *. rewrite Us. exact Rc.
  - unfold lamports. rewrite Us. exact Ls.
  - exact Pos.
  - exact Ln.
  - exact Lt.
  - exact Nse.
  - unfold transferable, mint_account, mint_data in *. rewrite Uu. exact Hu.
  - unfold lamports. rewrite Uu. exact Lu.
  - exact E1.
  - exact E4.
  - exact E6.
  - exact M1.
  - split; [exact R1|]. split; [exact R2|]. split; [exact R3|]. split; [exact R4|]. split; [rewrite R6; discriminate|]. unfold cpi_guard_locked. rewrite R7. reflexivity.
  - exact R8.
  - assert (S0 : balance l3 source = balance l source) by (unfold balance; rewrite Us; reflexivity).
    assert (S1 : balance l3 esc = 0) by (unfold balance; destruct E1 as (_ & Q & _); rewrite Q; exact (E5 Nn)).
    assert (S2 : balance l3 k = 0) by (unfold balance; destruct R1 as (_ & Q & _); rewrite Q; exact R5).
    assert (S3 : supply l3 w = 0) by (unfold supply; destruct M1 as (_ & Q & _); rewrite Q; exact M2).
    assert (S4 : n <= balance l source) by (unfold balance; destruct Hs1 as (_ & Q & _); rewrite Q; exact Ln).
    rewrite S0 in G1. rewrite S1 in G2. rewrite S2 in G3. rewrite S3 in G4.
    exists t1, l1, t2, l2, ixs, l3, t4, l4, f. split; [exact J1|]. split; [exact A1|]. split; [exact J2|]. split; [exact A2|]. split; [exact J3|]. split; [exact A3|]. split; [exact J4|]. split; [exact A4|].
    split; [exact F1|]. split; [exact F2|]. split; [clear -G1 S4; lia|]. split; [clear -G2; lia|]. split; [clear -G3; lia|]. split; [clear -G4; lia|].
    intros y q fee4 Pq Lq Ak Fee4. destruct (RT y q fee4 Pq Lq Ak) as (t5 & l5 & f2 & J5 & A5 & F3 & F4 & V1 & V2 & V3 & V4 & P5 & O5).
    { destruct P as (Q & _). clear -Q Fee4. lia. }
    rewrite S0 in V1. rewrite S1 in V2. rewrite S2 in V3. rewrite S3 in V4.
    exists t5, l5, f2. split; [exact J5|]. split; [exact A5|]. split; [exact F3|]. split; [exact F4|]. split; [exact V1|]. split; [clear -V2 Lq; lia|]. split; [clear -V3 Lq; lia|]. split; [clear -V4 Lq; lia|].
    split.
    + destruct P as (Q1 & Q2 & Q3). destruct P5 as (Q4 & Q5 & Q6). split; [clear -Q1 Q4; lia|]. rewrite Q5, Q6. split; [exact Q2|exact Q3].
    + intros z Hz. rewrite O5 by (intros [X|[X|[X|[X|[X|[]]]]]]; apply Hz; [left|right; left|do 4 right; left|do 2 right; left|do 5 right; left]; exact X).
      apply O. intros [X|[X|[X|[X|[X|[]]]]]]; apply Hz; [left|do 2 right; left|do 3 right; left|do 4 right; left|do 5 right; left]; exact X.
Qed.
Theorem C61_life : forall e0 e past l dec fee1 fee2 feea fee3 payer x u utp wtp idempotent k source owner n mu ts size,
  reads_mints dec -> sg_signs payer = true ->
  history e0 past l -> ever (no_permanent_delegate u) past l -> lawful e0 e -> spl_or_t22 wtp -> spl_or_t22 utp -> ~ native_mint u ->
  let w := wrapped_mint_of e u wtp in let b := backpointer_of e w in let a := authority_of e w in let esc := escrow_of e u utp wtp in
  addresses_exist e u wtp -> derivable e (ata_seeds a u utp) ata_id ->
  transferable l utp u mu -> 0 < lamports l u -> ext_default_state mu = Initialized -> ~ In MxNonTransferable (m_exts mu) -> promised_size wtp size ->
  unallocated l w -> unallocated l b -> unallocated l esc -> lamports l esc = 0 -> fresh_key l k -> sg_key payer <> k -> owner <> k -> wallet l (sg_key payer) -> wallet l owner ->
  (forall l1, (forall m, a_data (l1 owner) <> DMultisig m) -> helper_appends e l1 owner [] /\ helper_finds e l1 owner []) -> helper_usual e ->
  holder l utp u source owner ts -> open_account l source -> can_receive e l utp u source mu ts -> 0 < lamports l source -> 0 < n -> n <= t_amount ts -> n < two64 ->
  js_wrap_asks e (sg_key payer) x u utp wtp source k owner n ->
  let cost := (e_rent e size - lamports l w) + (e_rent e 32 - lamports l b) in let rent := N.max 1 (e_rent e (tok_space (init_account_exts utp mu true))) in
  e_rent e size < two64 -> e_rent e 32 < two64 -> lamports l w < two64 -> lamports l b < two64 -> rent < two64 -> 0 < e_rent e 165 -> e_rent e 165 < two64 ->
  fee1 + cost + (fee2 + rent) + (feea + e_rent e 165) + fee3 + e_rent e 0 <= lamports l (sg_key payer) ->
  exists t1 l1 t2 l2 ixs l3 t4 l4 f,
    js_transaction payer (js_create_mint_helper e payer u wtp idempotent l) = Ok t1 /\ accepted e fee1 t1 l l1 /\
    js_opt_transaction payer (js_create_escrow e dec payer u wtp l1) = Ok (Some t2) /\ accepted e fee2 t2 l1 l2 /\
    js_create_token_account e (sg_key payer) k w owner wtp = Ok ixs /\ send_setup e feea (sg_key payer) ixs l2 = (l3, Ok tt) /\
    js_transaction payer (js_single_wrap e dec payer x l3) = Ok t4 /\ accepted e fee3 t4 l3 l4 /\ fee_for mu (e_epoch e) n f /\ f <= n /\
    balance l4 source + n = balance l source /\ balance l4 esc = n - f /\ balance l4 k = n - f /\ supply l4 w = n - f /\
    forall y q fee4, 0 < q -> q <= n - f -> js_unwrap_asks (sg_key payer) y u utp wtp k source owner q ->
      fee1 + cost + (fee2 + rent) + (feea + e_rent e 165) + (fee3 + fee4) + e_rent e 0 <= lamports l (sg_key payer) ->
      exists t5 l5 f2, js_transaction payer (js_single_unwrap e dec payer y l4) = Ok t5 /\ accepted e fee4 t5 l4 l5 /\ fee_for mu (e_epoch e) q f2 /\ f2 <= q /\
        balance l5 source + n = balance l source + (q - f2) /\ balance l5 esc = n - f - q /\ balance l5 k = n - f - q /\ supply l5 w = n - f - q /\
        paid l l5 (sg_key payer) (fee1 + cost + (fee2 + rent) + (feea + e_rent e 165) + (fee3 + fee4)) /\ only_changed l l5 [sg_key payer; source; w; b; esc; k].
Proof.
  intros e0 e past l dec fee1 fee2 feea fee3 payer x u utp wtp idempotent k source owner n mu ts size Rd Y H Ev La Tw Tu Nn w b a esc Ad D3 Hu Lu Ds Nt Sz Uw Ub Ue Le Fk Nk Nok Wal Wow Hh Hy
    Hs Op Rc Ls Pos Ln Lt Ask cost rent B1 B2 B3 B4 B5 B6 B7 Fee.
  exact (life_aux e0 e past l dec fee1 fee2 feea fee3 payer x u utp wtp idempotent k source owner n mu ts size w b a esc cost rent Rd Y H Ev La Tw Tu Nn eq_refl eq_refl eq_refl eq_refl Ad D3 Hu Lu Ds Nt Sz
    Uw Ub Ue Le Fk Nk Nok Wal Wow Hh Hy Hs Op Rc Ls Pos Ln Lt Ask eq_refl eq_refl B1 B2 B3 B4 B5 B6 B7 Fee).
Qed.
Print Assumptions C61_life.

(** ** Examples *)
(** Alice has 1000 of [d_u]; nothing is set up.  She wraps 70 into a new account and unwraps 40. *)
Definition life_setup : list cmd :=
  [ CFund d_alice 100000; CAlloc d_u 82 5000 spl_token_id; CAlloc d_alice_u 165 5000 spl_token_id;
    CTok spl_token_id [meta_w d_u false] (TiInitializeMint2 6 d_mintauth (Some d_freeze));
    CTok spl_token_id [meta_w d_alice_u false; meta_r d_u false] (TiInitializeAccount d_alice false);
    CTok spl_token_id [meta_w d_u false; meta_w d_alice_u false; meta_r d_mintauth true] (TiMintTo 1000) ].
Definition life_wraps : js_wrap_args := mkJsWrap d_alice_u t22_id 70 None None (Some (PkRaw 178)) None.
Definition life_unwraps : js_unwrap_args := mkJsUnwrap (PkRaw 178) d_alice_u 40 None None None None.
Lemma life_no_pd : ever (no_permanent_delegate d_u) (past_of life_setup) (now_of life_setup).
Proof.
  assert (H : forallb (fun x => match a_data (x d_u) with DMint m => match ext_permanent_delegate m with None => true | Some _ => false end | _ => true end)
                (now_of life_setup :: past_of life_setup) = true) by (vm_compute; reflexivity).
  rewrite forallb_forall in H. intros x Hx m (_ & D & _). specialize (H x Hx). rewrite D in H. destruct (ext_permanent_delegate m); [discriminate|reflexivity].
Qed.
Lemma life_unallocated k : k = d_w t22_id \/ k = d_b t22_id \/ k = d_esc spl_token_id t22_id -> unallocated (now_of life_setup) k /\ lamports (now_of life_setup) k = 0.
Proof. intros [-> |[-> | ->]]; vm_compute; repeat split; reflexivity. Qed.
Definition life_mint : mint := mkMint (Some d_mintauth) 1000 6 true (Some d_freeze) [] 82.
Definition life_tok : tokacc := mkTok d_u d_alice 1000 None 0 Initialized None None [].
Example C61_example : exists t1 l1 t2 l2 ixs l3 t4 l4 t5 l5,
  js_transaction js_alice (js_create_mint_helper demo_env js_alice d_u t22_id false (now_of life_setup)) = Ok t1 /\ accepted demo_env 5 t1 (now_of life_setup) l1 /\
  js_opt_transaction js_alice (js_create_escrow demo_env demo_dec js_alice d_u t22_id l1) = Ok (Some t2) /\ accepted demo_env 5 t2 l1 l2 /\
  js_create_token_account demo_env d_alice (PkRaw 178) (d_w t22_id) d_alice t22_id = Ok ixs /\ send_setup demo_env 5 d_alice ixs l2 = (l3, Ok tt) /\
  js_transaction js_alice (js_single_wrap demo_env demo_dec js_alice life_wraps l3) = Ok t4 /\ accepted demo_env 5 t4 l3 l4 /\
  js_transaction js_alice (js_single_unwrap demo_env demo_dec js_alice life_unwraps l4) = Ok t5 /\ accepted demo_env 5 t5 l4 l5 /\
  balance l5 d_alice_u = 970 /\ balance l5 (PkRaw 178) = 30 /\ balance l5 (d_esc spl_token_id t22_id) = 30 /\ supply l5 (d_w t22_id) = 30 /\
  paid (now_of life_setup) l5 d_alice 6675.
Proof.
  destruct (life_unallocated (d_w t22_id)) as [U1 L1]; [left; reflexivity|]. destruct (life_unallocated (d_b t22_id)) as [U2 L2]; [right; left; reflexivity|].
  destruct (life_unallocated (d_esc spl_token_id t22_id)) as [U3 L3]; [right; right; reflexivity|].
  assert (Hs : a_data (now_of life_setup d_alice_u) = DTok life_tok) by (vm_compute; reflexivity).
  destruct (C61_life demo_env demo_env (past_of life_setup) (now_of life_setup) demo_dec 5 5 5 5 js_alice life_wraps d_u spl_token_id t22_id false (PkRaw 178) d_alice_u d_alice 70 life_mint life_tok 303)
    as (t1 & l1 & t2 & l2 & ixs & l3 & t4 & l4 & f & J1 & A1 & J2 & A2 & J3 & A3 & J4 & A4 & F & _ & _ & _ & _ & _ & R).
  { exact demo_reads. } { reflexivity. } { apply played_history. vm_compute. reflexivity. } { exact life_no_pd. } { exact demo_lawful. } { right; reflexivity. } { left; reflexivity. }
  { intros [X|X]; exfalso; vm_compute in X; discriminate X. } { exact cli_addresses. } { apply demo_derivable. } { vm_compute. repeat split; reflexivity. } { vm_compute. reflexivity. } { reflexivity. } { intros []. }
  { right. split; reflexivity. } { exact U1. } { exact U2. } { exact U3. } { exact L3. }
  { vm_compute. repeat split; try reflexivity. intros [X|X]; discriminate X. } { discriminate. } { discriminate. } { vm_compute. repeat split; reflexivity. } { vm_compute. repeat split; reflexivity. }
  { intros lx _. split; intros lz accounts _ _ _; reflexivity. } { exact demo_helper_usual. }
  { split; [|repeat split; discriminate]. split; [vm_compute; reflexivity|split; [exact Hs|discriminate]]. }
  { intros z X. rewrite Hs in X. injection X as <-. split; [reflexivity|intros []]. }
  { split; [split; [vm_compute; reflexivity|split; [exact Hs|discriminate]]|]. repeat split; try discriminate. intro Z. exfalso. apply Z. reflexivity. }
  { vm_compute. reflexivity. } { reflexivity. } { discriminate. } { reflexivity. }
  { split; [reflexivity|]. split; [reflexivity|]. split; [reflexivity|]. split; [left; reflexivity|]. split; [left; reflexivity|]. split; [left; reflexivity|]. left. split; reflexivity. }
  { reflexivity. } { reflexivity. } { change (lamports (now_of life_setup) (d_w t22_id) < two64). rewrite L1. reflexivity. } { change (lamports (now_of life_setup) (d_b t22_id) < two64). rewrite L2. reflexivity. }
  { reflexivity. } { reflexivity. } { reflexivity. } { vm_compute. discriminate. }
  change (wrapped_mint_of demo_env d_u t22_id) with (d_w t22_id) in R, J3. change (backpointer_of demo_env (d_w t22_id)) with (d_b t22_id) in R. change (escrow_of demo_env d_u spl_token_id t22_id) with (d_esc spl_token_id t22_id) in R.
  assert (f = 0) by exact F. subst f. rewrite L1, L2 in R.
  destruct (R life_unwraps 40 5) as (t5 & l5 & f2 & J5 & A5 & F2 & _ & V1 & V2 & V3 & V4 & P5 & _).
  { reflexivity. } { discriminate. }
  { split; [reflexivity|]. split; [reflexivity|]. split; [reflexivity|]. split; [left; reflexivity|]. split; [left; reflexivity|]. split; [left; reflexivity|]. left. split; reflexivity. }
  { vm_compute. discriminate. }
  assert (f2 = 0) by exact F2. subst f2.
  exists t1, l1, t2, l2, ixs, l3, t4, l4, t5, l5.
  split; [exact J1|]. split; [exact A1|]. split; [exact J2|]. split; [exact A2|]. split; [exact J3|]. split; [exact A3|]. split; [exact J4|]. split; [exact A4|]. split; [exact J5|]. split; [exact A5|].
  split. { assert (B : balance (now_of life_setup) d_alice_u = 1000) by (unfold balance; rewrite Hs; reflexivity). rewrite B in V1. clear -V1. lia. }
  split; [exact V3|]. split; [exact V2|]. split; [exact V4|]. exact P5.
Qed.
