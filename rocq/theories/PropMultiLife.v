(** * PropMultiLife.v — C68: the whole life of a wrapped token held by multisigs, through the JavaScript client, as in clients/js/src/examples/multisig.ts:
    createMint, createEscrowAccount, createTokenAccount (for the multisig), multisigOfflineSignWrap by every participant, combinedMultisigTx,
    multisigOfflineSignUnwrap by every participant, combinedMultisigTx. *)
From Verif Require Import Base Codec State Pda TokenProg Cpi Ata Meta Processor Builders Cli Js JsAccounts Tac PdaProofs TokProofs ProcProofs Spec HistorySpec CliSpec JsSpec CloseProofs SpecLemmas
  CreateProofs CreateSpec InvState InvHist HistProofs PropWrap PropEscrow FrameProofs GlobalProofs PropGlobal CliProofs CliSign CliCreate CodecProofs PropBuilders PropCreate PropCli PropCliEscrow PropCliWrap PropCliUnwrap
  PropJs PropJsTx PropJsUnwrap PropJsMulti PropNested PropTokenAccount PropLifecycle Demo Demo2 DemoHist.

(** What the participants' copies of a wrap are copies of. *)
Lemma offline_message e P members hash parts i (build : signer * list signer -> res js_ix) copies c :
  participants P members parts -> (forall p, In p parts -> build p = Ok (mkJsIx (TxTokenWrap i) (snd p))) ->
  Forall2 (fun p t => js_offline e (fst p) hash (build p) = Ok t) parts copies -> combine copies = Ok c -> exists ss, c = (compile e P i hash, ss).
Proof.
  intros (Pa & _) B F Cb. destruct c as [m ss]. destruct (combine_inv _ _ _ Cb) as (t & r & Et & -> & _). exists ss. f_equal.
  subst copies. inversion F as [|p t' ps r' Hp F' E1 E2]; subst t' r'. assert (Ip : In p parts) by (rewrite <- E1; left; reflexivity).
  rewrite (B p Ip) in Hp. destruct (Pa p Ip) as (K & _). unfold js_offline in Hp. cbn [bind jx_ix jx_signers] in Hp. rewrite K in Hp. unfold partially_sign in Hp.
  apply bind_ok in Hp. destruct Hp as ([] & _ & Hp). injection Hp as <-. reflexivity.
Qed.
Lemma build_wrap_members e source wtp n owner u w a esc recipient utp (multi : list signer) members :
  n < two64 -> esc = ata_of e a u utp -> derivable e (ata_seeds a u utp) ata_id -> map sg_key multi = members -> members <> [] ->
  js_build_wrap e source wtp (Z.of_N n) (JsAddress owner) u w a recipient utp multi =
  Ok (mkJsIx (TxTokenWrap (build_wrap tw_id recipient w a utp wtp source u esc owner members n)) multi).
Proof.
  intros Lt Ee D3 K Nm. unfold js_build_wrap. rewrite js_ata_eq, (get_ata_live e a u utp D3). cbn [bind]. rewrite <- Ee.
  destruct multi as [|y r]; [exfalso; apply Nm; symmetry; exact K|].
  destruct (C48_wrap_unwrap tw_id recipient w a utp wtp source u esc y owner y r n (2 ^ 64) (JsAddress owner) [] Lt (or_intror (Z.le_refl _))) as (_ & Q & _).
  rewrite Q, K. reflexivity.
Qed.
Lemma network_signers e P i hash ss k : In k (tr_signed (to_network e (compile e P i hash, ss))) -> must_sign e P [TxTokenWrap i] k = true.
Proof.
  unfold to_network. cbn [tr_signed]. destruct (_ =? _)%nat; [|intros []]. intro I. apply in_map_iff in I. destruct I as ([q s] & <- & I). apply filter_In in I. destruct I as [I _].
  apply in_combine_l in I. apply (proj1 (proj2 (slots_ok e (compile e P i hash)) q)) in I. unfold compile in I. cbn [mg_payer mg_ix] in I. rewrite raised_signs in I. exact I.
Qed.

(** What a multisig's wrap leaves behind, exactly. *)
Lemma multi_leaves : forall e0 e past l hash ss fee payer u utp wtp source recipient owner members n mu mw ts te tr w a esc l1,
  history e0 past l -> same_curve e0 e -> spl_or_t22 wtp -> spl_or_t22 utp ->
  w = wrapped_mint_of e u wtp -> a = authority_of e w -> esc = escrow_of e u utp wtp ->
  members <> [] -> (forall k, In k members -> is_tw_pda k = false) ->
  wallet l payer -> token_account l source utp ts -> t_mint ts = u -> n < two64 -> source <> esc -> transferable l utp u mu ->
  token_account l esc utp te -> mint_account l w wtp mw -> token_account l recipient wtp tr -> ~ native_mint u ->
  let t := to_network e (compile e payer (build_wrap tw_id recipient w a utp wtp source u esc owner members n) hash, ss) in
  accepted e fee t l l1 ->
  possible t /\ may_write e (tr_payer t) (tr_ixs t) u = false /\
  exists f ts2 te2, fee_for mu (e_epoch e) n f /\ f <= n /\
    l1 source = mkAcc (lamports l source) (DTok ts2) utp /\ t_amount ts2 = t_amount ts - n /\ same_account ts ts2 /\ t_exts ts2 = t_exts ts /\ delegation_after ts ts2 owner n /\
    l1 esc = mkAcc (lamports l esc) (DTok te2) utp /\ same_account te te2 /\ t_amount te2 = t_amount te + (n - f) /\
    a_owner (l1 recipient) = wtp /\ lamports l1 recipient = lamports l recipient /\
    a_data (l1 recipient) = DTok (mkTok (t_mint tr) (t_owner tr) (t_amount tr + (n - f)) (t_delegate tr) (t_delegated tr) (t_state tr) (t_native tr) (t_close tr) (t_exts tr)) /\
    l1 w = mkAcc (lamports l w) (DMint (mkMint (m_auth mw) (m_supply mw + (n - f)) (m_decimals mw) (m_init mw) (m_freeze mw) (m_exts mw) (m_len mw))) wtp.
Proof.
  intros e0 e past l hash ss fee payer u utp wtp source recipient owner members n mu mw ts te tr w a esc l1 H C Tw Tu Ew Ea Ee Nm Mp Wal Hs Ms Lt Ne Hu He Hw Hr Nn t A.
  set (ix := build_wrap tw_id recipient w a utp wtp source u esc owner members n) in *.
  assert (Tp : tr_payer t = payer) by reflexivity.
  assert (Ti : tr_ixs t = [TxTokenWrap (as_compiled e payer ix)]) by reflexivity.
  pose proof Wal as (Wo & Wd & Wt & Wa). pose proof Hu as (Hu1 & _ & Nh).
  pose proof (wallet_not_token l esc utp te payer Wal Tu He) as Ne1. pose proof (wallet_not_token l source utp ts payer Wal Tu Hs) as Ns1.
  pose proof (wallet_not_token l recipient wtp tr payer Wal Tw Hr) as Nr1. pose proof (wallet_not_mint l w wtp mw payer Wal Tw Hw) as Nw1.
  pose proof (wallet_not_mint l u utp mu payer Wal Tu Hu1) as Nu1.
  assert (Um : forall k p z, token_account l k p z -> u <> k). { intros k p z (_ & Dz & _) X. rewrite <- X in Dz. destruct Hu1 as (_ & Q & _). rewrite Q in Dz. discriminate Dz. }
  assert (N9 : exists ms, tx_metas ix = nine ms owner members /\ forall m, In m ms -> i_signer m = false).
  { exists [meta_w recipient false; meta_w w false; meta_r a false; meta_r utp false; meta_r wtp false; meta_w source false; meta_r u false; meta_w esc false].
    split; [reflexivity|]. intros m [<-|[<-|[<-|[<-|[<-|[<-|[<-|[<-|[]]]]]]]]]; reflexivity. }
  destruct N9 as (ms & N9 & Un).
  split; [|split].
  - split.
    + intros k Hk. apply network_signers in Hk. destruct members as [|m0 mr]; [contradiction|].
      destruct (members_sign e payer ix ms owner m0 mr N9 Un k Hk) as [-> | I]; [exact Wt|exact (Mp k I)].
    + intros i Hi. rewrite Ti in Hi. destruct Hi as [<-|[]]. reflexivity.
  - rewrite Tp, Ti. unfold as_compiled. rewrite raised_writes. unfold may_write. apply orb_false_iff. split.
    + destruct (pk_eqb u payer) eqn:Q; [|reflexivity]. apply pk_eqb_eq in Q. exfalso. exact (Nu1 Q).
    + cbn [existsb ix_accounts]. rewrite orb_false_r. destruct (is_wr (tx_metas ix) u) eqn:Q; [|reflexivity]. exfalso. apply is_wr_In in Q. destruct Q as (i & Ii & Ki & Wi).
      subst ix. unfold build_wrap in Ii. cbn [tx_metas] in Ii. apply in_app_or in Ii. destruct Ii as [Ii|Ii].
      * destruct Ii as [<-|[<-|[<-|[<-|[<-|[<-|[<-|[<-|[<-|[]]]]]]]]]]; cbn [meta_w meta_r i_key i_writable] in Ki, Wi; try discriminate Wi; symmetry in Ki.
        -- exact (Um recipient wtp tr Hr Ki). -- rewrite Ew in Ki. exact (unwrapped_neq_wrapped e u wtp Ki). -- exact (Um source utp ts Hs Ki). -- exact (Um esc utp te He Ki).
      * apply in_map_iff in Ii. destruct Ii as (z & <- & _). discriminate Wi.
  - destruct (accepted_one e fee t l l1 (as_compiled e payer ix) Ti eq_refl A) as [Pr _]. rewrite Tp in Pr. rewrite raised_twice in Pr. change (tx_data (as_compiled e payer ix)) with (pack (Wrap n)) in Pr.
    set (acc := raised e payer [TxTokenWrap ix] (tx_metas ix)) in *.
    remember (charge payer fee l) as l0 eqn:E0.
    pose proof (charge_other payer fee l esc Ne1) as Ce. pose proof (charge_other payer fee l source Ns1) as Cs.
    pose proof (charge_other payer fee l recipient Nr1) as Cr. pose proof (charge_other payer fee l w Nw1) as Cw. rewrite <- E0 in Ce, Cs, Cr, Cw.
    pose proof (charge_other payer fee l u Nu1) as Cu. rewrite <- E0 in Cu.
    destruct (C13_wrap e acc n l0 l1 recipient w a utp wtp source u esc owner Lt) as (mu' & mw' & ts' & te' & f & ts2 & te2 & _ & (B1 & B2 & B3 & B4 & B5 & B6 & B7 & B8) & (_ & F1 & F2 & _ & F4) & (S1 & S2 & S3 & S4 & S5) & (E1 & E2 & _ & E4 & _) & W1 & (tr' & R1 & R2 & R3 & R4) & _ & Fr).
    { exists members. unfold acc. rewrite raised_keys. unfold ix, build_wrap. cbn [tx_metas]. rewrite map_app, map_map. cbn [meta_r i_key map]. rewrite map_id. reflexivity. }
    { exact Pr. } { exact Ne. }
    assert (mu' = mu). { destruct B1 as [B1 _]. destruct Hu1 as (_ & Hu1 & _). rewrite Cu, Hu1 in B1. injection B1 as ->. reflexivity. } subst mu'.
    assert (mw' = mw). { destruct B2 as (_ & B2 & _). destruct Hw as (_ & Hw & _). rewrite Cw, Hw in B2. injection B2 as ->. reflexivity. } subst mw'.
    assert (ts' = ts). { destruct B4 as (_ & B4 & _). destruct Hs as (_ & Hs & _). rewrite Cs, Hs in B4. injection B4 as ->. reflexivity. } subst ts'.
    assert (te' = te). { destruct B6 as (_ & B6 & _). destruct He as (_ & He & _). rewrite Ce, He in B6. injection B6 as ->. reflexivity. } subst te'.
    destruct (R4 (or_introl Nh)) as [R5 R6].
    assert (tr' = tr). { destruct R5 as (_ & R5 & _). destruct Hr as (_ & Hr & _). rewrite Cr, Hr in R5. injection R5 as ->. reflexivity. } subst tr'.
    assert (Z : native_part ts n = 0). { apply (no_native_part e0 l source utp ts n (history_inv _ _ _ H) Tu Hs). rewrite Ms. exact Nn. }
    rewrite Z, N.sub_0_r in S1. rewrite Z, N.add_0_r in E1. unfold lamports in *. rewrite Cs in S1. rewrite Ce in E1. rewrite Cw in W1. rewrite Cr in R6.
    exists f, ts2, te2. repeat (split; [eassumption|]). exact W1.
Qed.

(** Wrap by one multisig, unwrap by another: the wrapped tokens are in an account of the second. *)
Lemma multi_round_trip : forall e0 e past l hash fee payer parts members owner u utp wtp source recipient n mu mw ts te tr w a esc,
  history e0 past l -> ever (no_permanent_delegate u) past l -> lawful e0 e -> spl_or_t22 wtp -> spl_or_t22 utp -> ~ native_mint u ->
  w = wrapped_mint_of e u wtp -> a = authority_of e w -> esc = escrow_of e u utp wtp ->
  derivable e (wrapped_mint_seeds u wtp) tw_id -> derivable e (wrapped_mint_authority_seeds w) tw_id -> derivable e (ata_seeds a u utp) ata_id ->
  participants payer members parts -> members <> [] -> (forall k, In k members -> is_tw_pda k = false) -> may_act l utp owner members -> helper_appends e l owner members ->
  helper_usual e -> wallet l payer -> fee + e_rent e 0 <= lamports l payer ->
  holder l utp u source owner ts -> open_account l source -> can_receive e l utp u source mu ts -> 0 < lamports l source -> 0 < n -> n <= t_amount ts -> n < two64 -> source <> esc ->
  transferable l utp u mu -> 0 < lamports l u ->
  token_account l esc utp te -> open_account l esc -> (ext_fee mu <> None -> In XtTransferFeeAmount (map acct_ext_type_of (t_exts te))) ->
  mint_account l w wtp mw -> token_account l recipient wtp tr -> t_mint tr = w -> t_state tr = Initialized -> 0 < lamports l recipient ->
  exists copies c l1 f,
    Forall2 (fun p t => js_offline_wrap e (fst p) hash source wtp (Z.of_N n) w a (JsAddress owner) u recipient utp (snd p) = Ok t) parts copies /\
    combine copies = Ok c /\ accepted e fee (to_network e c) l l1 /\ fee_for mu (e_epoch e) n f /\ f <= n /\
    balance l1 source = balance l source - n /\ balance l1 esc = balance l esc + (n - f) /\
    balance l1 recipient = balance l recipient + (n - f) /\ supply l1 w = supply l w + (n - f) /\ paid l l1 payer fee /\ only_changed l l1 [payer; source; esc; w; recipient] /\
    forall hash2 fee2 parts2 members2 owner2 k, participants payer members2 parts2 -> members2 <> [] -> holder l wtp w recipient owner2 tr ->
      0 < k -> k <= n - f -> may_act l1 wtp owner2 members2 -> helper_finds e l1 owner2 members2 -> fee + fee2 + e_rent e 0 <= lamports l payer ->
      exists copies2 c2 l2 f2,
        Forall2 (fun p t => js_offline_unwrap e (fst p) hash2 recipient (Z.of_N k) w a u source utp wtp (JsAddress owner2) (snd p) = Ok t) parts2 copies2 /\
        combine copies2 = Ok c2 /\ accepted e fee2 (to_network e c2) l1 l2 /\ fee_for mu (e_epoch e) k f2 /\ f2 <= k /\
        balance l2 source + n = balance l source + (k - f2) /\ balance l2 esc + k = balance l esc + (n - f) /\
        balance l2 recipient + k = balance l recipient + (n - f) /\ supply l2 w + k = supply l w + (n - f) /\
        paid l l2 payer (fee + fee2) /\ only_changed l l2 [payer; source; esc; w; recipient].
Proof.
  intros e0 e past l hash fee payer parts members owner u utp wtp source recipient n mu mw ts te tr w a esc H Ev La Tw Tu Nn Ew Ea Ee D1 D2 D3 Pa Nm Mp Act Hx Hy Wal Fee
    Hs Op Rc Ls Pos Le Lt Ne Hu Lu He Oe Wit Hw Hr1 Mr Sr Lr.
  assert (C : same_curve e0 e) by (destruct La as [Q _]; exact Q).
  pose proof Hs as (Hs1 & Ms & So & Ss & Sd & Sg).
  assert (Ste : t_state te = Initialized) by (destruct He as (_ & Q & _); exact (proj1 (Oe te Q))).
  pose proof (C54_wraps e0 e past l hash fee payer parts u utp wtp source recipient owner members n mu mw ts te tr Pa Nm H C Tw Tu) as TH. cbv zeta in TH.
  rewrite <- Ew in TH. rewrite <- Ea in TH. rewrite <- Ee in TH.
  destruct (TH D1 D2 D3 Act Hx Wal Fee Hs Op Ls Pos Le Lt Ne Hu He Ste Wit Hw Hr1 Mr Sr (or_introl Ev) (fun X => False_ind _ (Nn X)))
    as (copies & c & l1 & f & J & Cb & A & F1 & F2 & Bs & Be & Br & Sw & Pd & Oc). clear TH.
  exists copies, c, l1, f. split; [exact J|]. split; [exact Cb|]. split; [exact A|]. split; [exact F1|]. split; [exact F2|]. split; [exact Bs|]. split; [exact Be|]. split; [exact Br|]. split; [exact Sw|].
  split; [exact Pd|]. split; [exact Oc|].
  intros hash2 fee2 parts2 members2 owner2 k Pa2 Nm2 Hr Pk Lk Act2 Hf2 Fee2.
  destruct (offline_message e payer members hash parts (build_wrap tw_id recipient w a utp wtp source u esc owner members n) (fun p => js_build_wrap e source wtp (Z.of_N n) (JsAddress owner) u w a recipient utp (snd p)) copies c Pa) as [ss Ec].
  { intros p Hp. destruct (proj1 Pa p Hp) as (_ & K & _). apply build_wrap_members; [exact Lt| |exact D3|exact K|exact Nm]. rewrite Ee, Ea, Ew. unfold escrow_of. reflexivity. }
  { exact J. } { exact Cb. }
  rewrite Ec in A.
  destruct (multi_leaves e0 e past l hash ss fee payer u utp wtp source recipient owner members n mu mw ts te tr w a esc l1 H C Tw Tu Ew Ea Ee Nm Mp
     Wal Hs1 Ms Lt Ne Hu He Hw Hr1 Nn A) as (Ps & Nw & f' & ts2 & te2 & F1' & F2' & G1 & G2 & G3 & G4 & G5 & G6 & G7 & G8 & G9 & G10 & G11 & G12).
  destruct (accepted_later e0 e fee _ u past l l1 H La Ps A Nw) as [past1 Lat].
  pose proof (later_ever e0 u past l past1 l1 Lat Ev) as Ev1. destruct Lat as [H1 _].
  assert (f' = f).
  { unfold balance in Be. destruct He as (_ & De & _). rewrite G6, De in Be. cbn [a_data] in Be. clear -Be G8 F2 F2'. lia. }
  subst f'. pose proof Hu as (Hu1 & Hu2 & Hu3). pose proof Hr as (_ & _ & Ro & _ & Rdl & Rg).
  assert (Uk : l1 u = l u).
  { apply Oc. assert (Um : forall k p z, token_account l k p z -> k <> u). { intros k0 p z (_ & Dz & _) X. rewrite X in Dz. destruct Hu1 as (_ & Q & _). rewrite Q in Dz. discriminate Dz. }
    intros [Q|[Q|[Q|[Q|[Q|[]]]]]].
    - exact (wallet_not_mint l u utp mu payer Wal Tu Hu1 (eq_sym Q)).
    - exact (Um _ _ _ Hs1 Q). - exact (Um _ _ _ He Q). - rewrite Ew in Q. exact (wrapped_neq_unwrapped e u wtp Q). - exact (Um _ _ _ Hr1 Q). }
  set (tr1 := mkTok (t_mint tr) (t_owner tr) (t_amount tr + (n - f)) (t_delegate tr) (t_delegated tr) (t_state tr) (t_native tr) (t_close tr) (t_exts tr)) in *.
  assert (Le1 : k <= t_amount tr1) by (unfold tr1; cbn [t_amount]; clear -Lk; lia).
  assert (Lt1 : k < two64) by (clear -Lk Lt; lia).
  pose proof (C54_unwraps e0 e past1 l1 hash2 fee2 payer parts2 u utp wtp recipient source owner2 members2 k mu tr1 ts2 Pa2 Nm2 H1 Ev1 C Tw Tu) as TH. cbv zeta in TH.
  rewrite <- Ew in TH. rewrite <- Ea in TH. rewrite <- Ee in TH.
  destruct (TH D1 D2 D3 Act2 Hf2 Hy)
    as (copies2 & c2 & l2 & f2 & J2 & Cb2 & A2 & F3 & F4 & U1 & U2 & U3 & U4 & Pd2 & Oc2); clear TH.
  - destruct Wal as (Q1 & Q2 & Q3 & Q4). destruct Pd as (_ & P1 & P2). unfold wallet. rewrite P1, P2. split; [exact Q1|split; [exact Q2|split; [exact Q3|exact Q4]]].
  - destruct Pd as (P0 & _). clear -P0 Fee2. lia.
  - split; [split; [exact G9|split; [exact G11|exact (proj2 (proj2 Hr1))]]|]. split; [exact Mr|]. split; [exact Ro|]. split; [exact Sr|]. split; [exact Rdl|exact Rg].
  - rewrite G10. exact Lr.
  - exact Pk.
  - exact Le1.
  - exact Lt1.
  - split; [|split; [exact Hu2|exact Hu3]]. unfold mint_account, mint_data in *. rewrite Uk. exact Hu1.
  - unfold lamports. rewrite Uk. exact Lu.
  - destruct Rc as (_ & _ & _ & Rm & Rf). destruct G3 as (X1 & X2 & X3 & X4 & X5 & X6 & X7). split; [split; [rewrite G1; reflexivity|split; [rewrite G1; reflexivity|]]|].
    + rewrite X3. exact (proj2 (proj2 Hs1)).
    + split; [rewrite X1; exact Ms|]. split; [rewrite X3; exact Ss|]. unfold memo_required. rewrite G4. split; [exact Rm|exact Rf].
  - unfold lamports. rewrite G1. exact Ls.
  - exact Ne.
  - intros z Dz. rewrite G6 in Dz. injection Dz as <-. destruct G7 as (X1 & X2 & X3 & X4 & X5 & X6 & X7). rewrite X3, X6. destruct He as (_ & De & _). exact (Oe te De).
  - intro X. exfalso. exact (Nn X).
  - exists copies2, c2, l2, f2. split; [exact J2|]. split; [exact Cb2|]. split; [exact A2|]. split; [exact F3|]. split; [exact F4|].
    assert (Bal : n <= balance l source). { unfold balance. destruct Hs1 as (_ & Q & _). rewrite Q. exact Le. }
    split; [rewrite U4, Bs; clear -Bal F4; lia|]. split; [rewrite U3, Be; clear -Lk; lia|]. split; [rewrite U1, Br; clear -Lk; lia|]. split; [rewrite U2, Sw; clear -Lk; lia|].
    split.
    + destruct Pd as (P1 & P2 & P3). destruct Pd2 as (P4 & P5 & P6). split; [clear -P1 P4; lia|]. rewrite P5, P6. split; [exact P2|exact P3].
    + intros z Hz. rewrite Oc2; [apply Oc; exact Hz|]. intros [X|[X|[X|[X|[X|[]]]]]]; apply Hz; [left|do 4 right; left|do 2 right; left|do 3 right; left|right; left]; exact X.
Qed.

Lemma multi_life_aux : forall e0 e past l dec fee1 fee2 feea fee3 payer u utp wtp idempotent k source owner1 members1 parts1 owner2 members2 parts2 hash n mu ts size w b a esc cost rent,
  history e0 past l -> ever (no_permanent_delegate u) past l -> lawful e0 e -> spl_or_t22 wtp -> spl_or_t22 utp -> ~ native_mint u ->
  w = wrapped_mint_of e u wtp -> b = backpointer_of e w -> a = authority_of e w -> esc = escrow_of e u utp wtp ->
  addresses_exist e u wtp -> derivable e (ata_seeds a u utp) ata_id ->
  transferable l utp u mu -> 0 < lamports l u -> ext_default_state mu = Initialized -> ~ In MxNonTransferable (m_exts mu) -> promised_size wtp size ->
  unallocated l w -> unallocated l b -> unallocated l esc -> lamports l esc = 0 -> fresh_key l k -> sg_key payer <> k -> wallet l (sg_key payer) -> sg_signs payer = true ->
  participants (sg_key payer) members1 parts1 -> members1 <> [] -> (forall z, In z members1 -> is_tw_pda z = false) -> may_act l utp owner1 members1 ->
  (forall l1, may_act l1 utp owner1 members1 -> helper_appends e l1 owner1 members1) ->
  participants (sg_key payer) members2 parts2 -> members2 <> [] -> may_act l wtp owner2 members2 ->
  (forall l1, may_act l1 wtp owner2 members2 -> helper_finds e l1 owner2 members2) -> helper_usual e ->
  holder l utp u source owner1 ts -> open_account l source -> can_receive e l utp u source mu ts -> 0 < lamports l source -> 0 < n -> n <= t_amount ts -> n < two64 ->
  cost = (e_rent e size - lamports l w) + (e_rent e 32 - lamports l b) -> rent = N.max 1 (e_rent e (tok_space (init_account_exts utp mu true))) ->
  e_rent e size < two64 -> e_rent e 32 < two64 -> lamports l w < two64 -> lamports l b < two64 -> rent < two64 -> 0 < e_rent e 165 -> e_rent e 165 < two64 ->
  fee1 + cost + (fee2 + rent) + (feea + e_rent e 165) + fee3 + e_rent e 0 <= lamports l (sg_key payer) ->
  exists t1 l1 t2 l2 ixs l3 copies c l4 f,
    js_transaction payer (js_create_mint_helper e payer u wtp idempotent l) = Ok t1 /\ accepted e fee1 t1 l l1 /\
    js_opt_transaction payer (js_create_escrow e dec payer u wtp l1) = Ok (Some t2) /\ accepted e fee2 t2 l1 l2 /\
    js_create_token_account e (sg_key payer) k w owner2 wtp = Ok ixs /\ send_setup e feea (sg_key payer) ixs l2 = (l3, Ok tt) /\
    Forall2 (fun p t => js_offline_wrap e (fst p) hash source wtp (Z.of_N n) w a (JsAddress owner1) u k utp (snd p) = Ok t) parts1 copies /\
    combine copies = Ok c /\ accepted e fee3 (to_network e c) l3 l4 /\ fee_for mu (e_epoch e) n f /\ f <= n /\
    balance l4 source + n = balance l source /\ balance l4 esc = n - f /\ balance l4 k = n - f /\ supply l4 w = n - f /\
    forall hash2 q fee4, 0 < q -> q <= n - f -> fee1 + cost + (fee2 + rent) + (feea + e_rent e 165) + (fee3 + fee4) + e_rent e 0 <= lamports l (sg_key payer) ->
      exists copies2 c2 l5 f2,
        Forall2 (fun p t => js_offline_unwrap e (fst p) hash2 k (Z.of_N q) w a u source utp wtp (JsAddress owner2) (snd p) = Ok t) parts2 copies2 /\
        combine copies2 = Ok c2 /\ accepted e fee4 (to_network e c2) l4 l5 /\ fee_for mu (e_epoch e) q f2 /\ f2 <= q /\
        balance l5 source + n = balance l source + (q - f2) /\ balance l5 esc = n - f - q /\ balance l5 k = n - f - q /\ supply l5 w = n - f - q /\
        paid l l5 (sg_key payer) (fee1 + cost + (fee2 + rent) + (feea + e_rent e 165) + (fee3 + fee4)) /\ only_changed l l5 [sg_key payer; source; w; b; esc; k].
Proof.
  intros e0 e past l dec fee1 fee2 feea fee3 payer u utp wtp idempotent k source owner1 members1 parts1 owner2 members2 parts2 hash n mu ts size w b a esc cost rent
    H Ev La Tw Tu Nn Ew Eb Ea Ee Ad D3 Hu Lu Ds Nt Sz Uw Ub Ue Le Fk Nk Wal Y Pa1 Nm1 Mp1 Act1 Hx1 Pa2 Nm2 Act2 Hf2 Hy
    Hs Op Rc Ls Pos Ln Lt Ec Er B1 B2 B3 B4 B5 B6 B7 Fee.
  pose proof Hu as (Hu1 & Hu2 & Hu3). pose proof Hs as (Hs1 & Hs2).
  assert (Fee' : fee1 + cost + (fee2 + rent) + (feea + e_rent e 165) + e_rent e 0 <= lamports l (sg_key payer)) by (clear -Fee; lia).
  destruct (set_up_aux e0 e past l dec fee1 fee2 feea payer u utp wtp idempotent k owner2 mu size w b a esc cost rent Y H La Tw Tu Ad Hu1 Lu Ds Nt Sz Ew Eb Ea Ee D3
    Uw Ub Ue Le Fk Nk Wal Ec Er B1 B2 B3 B4 B5 B6 B7 Fee')
    as (t1 & l1 & t2 & l2 & ixs & l3 & past3 & mw & te & tr & J1 & A1 & J2 & A2 & J3 & A3 & L3 & (M1 & M2) & (E1 & E2 & E3 & E4 & E6 & E5) & (R1 & R2 & R3 & R4 & R6 & R7 & R5 & R8) & P & O).
  pose proof (later_ever _ _ _ _ _ _ L3 Ev) as Ev3. pose proof L3 as [H3 _].
  assert (Dn : forall z d, a_data (l z) = d -> d <> DRaw [] -> z <> sg_key payer /\ z <> w /\ z <> b /\ z <> esc /\ z <> k).
  { intros z d Dz Nz. destruct Wal as (_ & Q1 & _). destruct Uw as [Q2 _]. destruct Ub as [Q3 _]. destruct Ue as [Q4 _]. destruct Fk as (_ & [Q5 _] & _).
    repeat split; intro X; apply Nz; rewrite <- Dz, X; [exact Q1|exact Q2|exact Q3|exact Q4|exact Q5]. }
  assert (Kept : forall z d, a_data (l z) = d -> d <> DRaw [] -> l3 z = l z).
  { intros z d Dz Nz. destruct (Dn z d Dz Nz) as (Z1 & Z2 & Z3 & Z4 & Z5). apply O. intros [X|[X|[X|[X|[X|[]]]]]]; symmetry in X; [exact (Z1 X)|exact (Z2 X)|exact (Z3 X)|exact (Z4 X)|exact (Z5 X)]. }
  assert (Us : l3 source = l source) by (apply (Kept source (DTok ts)); [exact (proj1 (proj2 Hs1))|discriminate]).
  assert (Uu : l3 u = l u) by (apply (Kept u (DMint mu)); [exact (proj1 (proj2 Hu1))|discriminate]).
  assert (Nse : source <> esc) by (apply (Dn source (DTok ts)); [exact (proj1 (proj2 Hs1))|discriminate]).
  assert (Wal3 : wallet l3 (sg_key payer)). { destruct P as (_ & Q1 & Q2). unfold wallet. rewrite Q1, Q2. exact Wal. }
  assert (Act1' : may_act l3 utp owner1 members1).
  { destruct Act1 as [(Q & _)|(Q & m & Q1 & Q2 & Q3)]; [contradiction|]. right. split; [exact Q|]. exists m. rewrite (Kept owner1 (DMultisig m) Q2) by discriminate. split; [exact Q1|split; [exact Q2|exact Q3]]. }
  assert (Ad' := Ad). destruct Ad' as (D1 & D2 & D4). rewrite <- Ew in D2.
  assert (G0 : holder l3 utp u source owner1 ts) by (unfold holder, token_account in *; rewrite Us; exact Hs).
  assert (G1' : open_account l3 source) by (unfold open_account in *; rewrite Us; exact Op).
  assert (G2' : can_receive e l3 utp u source mu ts) by (unfold can_receive, token_account in *; rewrite Us; exact Rc).
  assert (G3' : 0 < lamports l3 source) by (unfold lamports; rewrite Us; exact Ls).
  assert (G4' : transferable l3 utp u mu) by (unfold transferable, mint_account, mint_data in *; rewrite Uu; exact Hu).
  assert (G5' : 0 < lamports l3 u) by (unfold lamports; rewrite Uu; exact Lu).
  assert (G6' : fee3 + e_rent e 0 <= lamports l3 (sg_key payer)) by (destruct P as (Q & _); clear -Q Fee; lia).
  destruct (multi_round_trip e0 e past3 l3 hash fee3 (sg_key payer) parts1 members1 owner1 u utp wtp source k n mu mw ts te tr w a esc H3 Ev3 La Tw Tu Nn Ew Ea Ee D1 D2 D3
    Pa1 Nm1 Mp1 Act1' (Hx1 l3 Act1') Hy Wal3 G6' G0 G1' G2' G3' Pos Ln Lt Nse G4' G5' E1 E4 E6 M1 R1 R2 R4 R8)
    as (copies & c & l4 & f & J4 & Cb & A4 & F1 & F2 & G1 & G2 & G3 & G4 & P4 & O4 & RT).
  assert (S0 : balance l3 source = balance l source) by (unfold balance; rewrite Us; reflexivity).
  assert (S1 : balance l3 esc = 0) by (unfold balance; destruct E1 as (_ & Q & _); rewrite Q; exact (E5 Nn)).
  assert (S2 : balance l3 k = 0) by (unfold balance; destruct R1 as (_ & Q & _); rewrite Q; exact R5).
  assert (S3 : supply l3 w = 0) by (unfold supply; destruct M1 as (_ & Q & _); rewrite Q; exact M2).
  assert (S4 : n <= balance l source) by (unfold balance; destruct Hs1 as (_ & Q & _); rewrite Q; exact Ln).
  rewrite S0 in G1. rewrite S1 in G2. rewrite S2 in G3. rewrite S3 in G4.
  exists t1, l1, t2, l2, ixs, l3, copies, c, l4, f. split; [exact J1|]. split; [exact A1|]. split; [exact J2|]. split; [exact A2|]. split; [exact J3|]. split; [exact A3|]. split; [exact J4|]. split; [exact Cb|]. split; [exact A4|].
  split; [exact F1|]. split; [exact F2|]. split; [clear -G1 S4; lia|]. split; [clear -G2; lia|]. split; [clear -G3; lia|]. split; [clear -G4; lia|].
  intros hash2 q fee4 Pq Lq Fee4.
  assert (Act2' : may_act l4 wtp owner2 members2).
  { destruct Act2 as [(Q & _)|(Q & m & Q1 & Q2 & Q3)]; [contradiction|]. right. split; [exact Q|]. exists m.
    assert (X : l4 owner2 = l owner2).
    { rewrite <- (Kept owner2 (DMultisig m) Q2) by discriminate. apply O4. destruct (Dn owner2 (DMultisig m) Q2) as (Z1 & Z2 & Z3 & Z4 & Z5); [discriminate|].
      intros [X|[X|[X|[X|[X|[]]]]]]; symmetry in X; [exact (Z1 X)| |exact (Z4 X)|exact (Z2 X)|exact (Z5 X)]. rewrite X in Q2. rewrite (proj1 (proj2 Hs1)) in Q2. discriminate Q2. }
    rewrite X. split; [exact Q1|split; [exact Q2|exact Q3]]. }
  destruct (RT hash2 fee4 parts2 members2 owner2 q Pa2 Nm2) as (copies2 & c2 & l5 & f2 & J5 & Cb2 & A5 & F3 & F4 & V1 & V2 & V3 & V4 & P5 & O5).
  { split; [exact R1|]. split; [exact R2|]. split; [exact R3|]. split; [exact R4|]. split; [rewrite R6; discriminate|]. unfold cpi_guard_locked. rewrite R7. reflexivity. }
  { exact Pq. } { exact Lq. } { exact Act2'. } { exact (Hf2 l4 Act2'). }
  { destruct P as (Q & _). clear -Q Fee4. lia. }
  rewrite S0 in V1. rewrite S1 in V2. rewrite S2 in V3. rewrite S3 in V4.
  exists copies2, c2, l5, f2. split; [exact J5|]. split; [exact Cb2|]. split; [exact A5|]. split; [exact F3|]. split; [exact F4|]. split; [exact V1|]. split; [clear -V2 Lq; lia|]. split; [clear -V3 Lq; lia|]. split; [clear -V4 Lq; lia|].
  split.
  + destruct P as (Q1 & Q2 & Q3). destruct P5 as (Q4 & Q5 & Q6). split; [clear -Q1 Q4; lia|]. rewrite Q5, Q6. split; [exact Q2|exact Q3].
  + intros z Hz. rewrite O5 by (intros [X|[X|[X|[X|[X|[]]]]]]; apply Hz; [left|right; left|do 4 right; left|do 2 right; left|do 5 right; left]; exact X).
    apply O. intros [X|[X|[X|[X|[X|[]]]]]]; apply Hz; [left|do 2 right; left|do 3 right; left|do 4 right; left|do 5 right; left]; exact X.
Qed.

(** ** C68: from nothing to wrapped tokens in the hands of a multisig, and back. One multisig (of the unwrapped token program) owns the tokens, another
    (of the wrapped token program) will own the wrapped ones; the payer sets everything up with its own transactions; then every participant signs a
    copy of the wrap, and later of the unwrap, and the copies are combined. *)
Theorem C68_life : forall e0 e past l dec fee1 fee2 feea fee3 payer u utp wtp idempotent k source owner1 members1 parts1 owner2 members2 parts2 hash n mu ts size,
  history e0 past l -> ever (no_permanent_delegate u) past l -> lawful e0 e -> spl_or_t22 wtp -> spl_or_t22 utp -> ~ native_mint u ->
  let w := wrapped_mint_of e u wtp in let b := backpointer_of e w in let a := authority_of e w in let esc := escrow_of e u utp wtp in
  addresses_exist e u wtp -> derivable e (ata_seeds a u utp) ata_id ->
  transferable l utp u mu -> 0 < lamports l u -> ext_default_state mu = Initialized -> ~ In MxNonTransferable (m_exts mu) -> promised_size wtp size ->
  unallocated l w -> unallocated l b -> unallocated l esc -> lamports l esc = 0 -> fresh_key l k -> sg_key payer <> k -> wallet l (sg_key payer) -> sg_signs payer = true ->
  participants (sg_key payer) members1 parts1 -> members1 <> [] -> (forall z, In z members1 -> is_tw_pda z = false) -> may_act l utp owner1 members1 ->
  (forall l1, may_act l1 utp owner1 members1 -> helper_appends e l1 owner1 members1) ->
  participants (sg_key payer) members2 parts2 -> members2 <> [] -> may_act l wtp owner2 members2 ->
  (forall l1, may_act l1 wtp owner2 members2 -> helper_finds e l1 owner2 members2) -> helper_usual e ->
  holder l utp u source owner1 ts -> open_account l source -> can_receive e l utp u source mu ts -> 0 < lamports l source -> 0 < n -> n <= t_amount ts -> n < two64 ->
  let cost := (e_rent e size - lamports l w) + (e_rent e 32 - lamports l b) in let rent := N.max 1 (e_rent e (tok_space (init_account_exts utp mu true))) in
  e_rent e size < two64 -> e_rent e 32 < two64 -> lamports l w < two64 -> lamports l b < two64 -> rent < two64 -> 0 < e_rent e 165 -> e_rent e 165 < two64 ->
  fee1 + cost + (fee2 + rent) + (feea + e_rent e 165) + fee3 + e_rent e 0 <= lamports l (sg_key payer) ->
  exists t1 l1 t2 l2 ixs l3 copies c l4 f,
    js_transaction payer (js_create_mint_helper e payer u wtp idempotent l) = Ok t1 /\ accepted e fee1 t1 l l1 /\
    js_opt_transaction payer (js_create_escrow e dec payer u wtp l1) = Ok (Some t2) /\ accepted e fee2 t2 l1 l2 /\
    js_create_token_account e (sg_key payer) k w owner2 wtp = Ok ixs /\ send_setup e feea (sg_key payer) ixs l2 = (l3, Ok tt) /\
    Forall2 (fun p t => js_offline_wrap e (fst p) hash source wtp (Z.of_N n) w a (JsAddress owner1) u k utp (snd p) = Ok t) parts1 copies /\
    combine copies = Ok c /\ accepted e fee3 (to_network e c) l3 l4 /\ fee_for mu (e_epoch e) n f /\ f <= n /\
    balance l4 source + n = balance l source /\ balance l4 esc = n - f /\ balance l4 k = n - f /\ supply l4 w = n - f /\
    forall hash2 q fee4, 0 < q -> q <= n - f -> fee1 + cost + (fee2 + rent) + (feea + e_rent e 165) + (fee3 + fee4) + e_rent e 0 <= lamports l (sg_key payer) ->
      exists copies2 c2 l5 f2,
        Forall2 (fun p t => js_offline_unwrap e (fst p) hash2 k (Z.of_N q) w a u source utp wtp (JsAddress owner2) (snd p) = Ok t) parts2 copies2 /\
        combine copies2 = Ok c2 /\ accepted e fee4 (to_network e c2) l4 l5 /\ fee_for mu (e_epoch e) q f2 /\ f2 <= q /\
        balance l5 source + n = balance l source + (q - f2) /\ balance l5 esc = n - f - q /\ balance l5 k = n - f - q /\ supply l5 w = n - f - q /\
        paid l l5 (sg_key payer) (fee1 + cost + (fee2 + rent) + (feea + e_rent e 165) + (fee3 + fee4)) /\ only_changed l l5 [sg_key payer; source; w; b; esc; k].
Proof.
  intros e0 e past l dec fee1 fee2 feea fee3 payer u utp wtp idempotent k source owner1 members1 parts1 owner2 members2 parts2 hash n mu ts size
    H Ev La Tw Tu Nn w b a esc Ad D3 Hu Lu Ds Nt Sz Uw Ub Ue Le Fk Nk Wal Y Pa1 Nm1 Mp1 Act1 Hx1 Pa2 Nm2 Act2 Hf2 Hy Hs Op Rc Ls Pos Ln Lt cost rent B1 B2 B3 B4 B5 B6 B7 Fee.
  exact (multi_life_aux e0 e past l dec fee1 fee2 feea fee3 payer u utp wtp idempotent k source owner1 members1 parts1 owner2 members2 parts2 hash n mu ts size w b a esc cost rent
    H Ev La Tw Tu Nn eq_refl eq_refl eq_refl eq_refl Ad D3 Hu Lu Ds Nt Sz Uw Ub Ue Le Fk Nk Wal Y Pa1 Nm1 Mp1 Act1 Hx1 Pa2 Nm2 Act2 Hf2 Hy Hs Op Rc Ls Pos Ln Lt eq_refl eq_refl B1 B2 B3 B4 B5 B6 B7 Fee).
Qed.

(** Two multisigs of alice and bob: [d_ms] of SPL Token holds 500 tokens, [d_ms2] of Token-2022 will hold the wrapped ones; carol pays. *)
Definition multi_setup : list cmd :=
  [ CFund d_carol 100000; CAlloc d_u 82 5000 spl_token_id; CAlloc d_ms 355 5000 spl_token_id; CAlloc d_ms2 355 5000 t22_id; CAlloc d_ms_u 165 5000 spl_token_id;
    CTok spl_token_id [meta_w d_u false] (TiInitializeMint2 6 d_mintauth (Some d_freeze));
    CTok spl_token_id [meta_w d_ms false; meta_r d_alice false; meta_r d_bob false] (TiInitializeMultisig (mkMultisig 2 [d_alice; d_bob]));
    CTok t22_id [meta_w d_ms2 false; meta_r d_alice false; meta_r d_bob false] (TiInitializeMultisig (mkMultisig 2 [d_alice; d_bob]));
    CTok spl_token_id [meta_w d_ms_u false; meta_r d_u false] (TiInitializeAccount d_ms false);
    CTok spl_token_id [meta_w d_u false; meta_w d_ms_u false; meta_r d_mintauth true] (TiMintTo 500) ].
Definition multi_mint : mint := mkMint (Some d_mintauth) 500 6 true (Some d_freeze) [] 82.
Definition multi_tok : tokacc := mkTok d_u d_ms 500 None 0 Initialized None None [].
Definition js_carol : signer := mkSigner d_carol true.
Lemma multi_no_pd : ever (no_permanent_delegate d_u) (past_of multi_setup) (now_of multi_setup).
Proof.
  assert (H : forallb (fun x => match a_data (x d_u) with DMint m => match ext_permanent_delegate m with None => true | Some _ => false end | _ => true end)
                (now_of multi_setup :: past_of multi_setup) = true) by (vm_compute; reflexivity).
  rewrite forallb_forall in H. intros x Hx m (_ & D & _). specialize (H x Hx). rewrite D in H. destruct (ext_permanent_delegate m); [discriminate|reflexivity].
Qed.
Lemma multi_unallocated k : k = d_w t22_id \/ k = d_b t22_id \/ k = d_esc spl_token_id t22_id -> unallocated (now_of multi_setup) k /\ lamports (now_of multi_setup) k = 0.
Proof. intros [-> |[-> | ->]]; vm_compute; repeat split; reflexivity. Qed.
Lemma demo_ms_lawful : lawful demo_env demo_ms.
Proof.
  split; [intros s p; reflexivity|]. intros p ms n l l' H. cbn in H. injection H as <-.
  eapply fs_world; [|apply fs_none]. intro k. assert (E : confine ms (hook_may l) l l k = l k) by (unfold confine; destruct (_ && _); reflexivity).
  rewrite E. repeat split; auto; try lia; intros; try contradiction.
Qed.
Example C68_example : exists t1 l1 t2 l2 ixs l3 copies c l4 copies2 c2 l5,
  js_transaction js_carol (js_create_mint_helper demo_ms js_carol d_u t22_id true (now_of multi_setup)) = Ok t1 /\ accepted demo_ms 5 t1 (now_of multi_setup) l1 /\
  js_opt_transaction js_carol (js_create_escrow demo_ms demo_dec js_carol d_u t22_id l1) = Ok (Some t2) /\ accepted demo_ms 5 t2 l1 l2 /\
  js_create_token_account demo_ms d_carol (PkRaw 178) (d_w t22_id) d_ms2 t22_id = Ok ixs /\ send_setup demo_ms 5 d_carol ixs l2 = (l3, Ok tt) /\
  Forall2 (fun p t => js_offline_wrap demo_ms (fst p) 77 d_ms_u t22_id 100 (d_w t22_id) (d_a t22_id) (JsAddress d_ms) d_u (PkRaw 178) spl_token_id (snd p) = Ok t) three copies /\
  combine copies = Ok c /\ accepted demo_ms 5 (to_network demo_ms c) l3 l4 /\
  balance l4 d_ms_u = 400 /\ balance l4 (d_esc spl_token_id t22_id) = 100 /\ balance l4 (PkRaw 178) = 100 /\ supply l4 (d_w t22_id) = 100 /\
  Forall2 (fun p t => js_offline_unwrap demo_ms (fst p) 78 (PkRaw 178) 100 (d_w t22_id) (d_a t22_id) d_u d_ms_u spl_token_id t22_id (JsAddress d_ms2) (snd p) = Ok t) three copies2 /\
  combine copies2 = Ok c2 /\ accepted demo_ms 5 (to_network demo_ms c2) l4 l5 /\
  balance l5 d_ms_u = 500 /\ balance l5 (d_esc spl_token_id t22_id) = 0 /\ balance l5 (PkRaw 178) = 0 /\ supply l5 (d_w t22_id) = 0.
Proof.
  destruct (multi_unallocated (d_w t22_id)) as [U1 L1]; [left; reflexivity|]. destruct (multi_unallocated (d_b t22_id)) as [U2 L2]; [right; left; reflexivity|].
  destruct (multi_unallocated (d_esc spl_token_id t22_id)) as [U3 L3]; [right; right; reflexivity|].
  assert (Hs : a_data (now_of multi_setup d_ms_u) = DTok multi_tok) by (vm_compute; reflexivity).
  assert (Bs : balance (now_of multi_setup) d_ms_u = 500) by (unfold balance; rewrite Hs; reflexivity).
  destruct (C68_life demo_env demo_ms (past_of multi_setup) (now_of multi_setup) demo_dec 5 5 5 5 js_carol d_u spl_token_id t22_id true (PkRaw 178) d_ms_u
    d_ms [d_alice; d_bob] three d_ms2 [d_alice; d_bob] three 77 100 multi_mint multi_tok 303)
    as (t1 & l1 & t2 & l2 & ixs & l3 & copies & c & l4 & f & J1 & A1 & J2 & A2 & J3 & A3 & J4 & Cb & A4 & F & _ & V1 & V2 & V3 & V4 & R).
  { apply played_history. vm_compute. reflexivity. } { exact multi_no_pd. } { exact demo_ms_lawful. } { right; reflexivity. } { left; reflexivity. }
  { intros [X|X]; exfalso; vm_compute in X; discriminate X. }
  { split; [exact (demo_derivable (wrapped_mint_seeds d_u t22_id) tw_id)|]. split; [exact (demo_derivable (wrapped_mint_authority_seeds (d_w t22_id)) tw_id)|exact (demo_derivable (backpointer_seeds (d_w t22_id)) tw_id)]. }
  { exact (demo_derivable (ata_seeds (d_a t22_id) d_u spl_token_id) ata_id). } { vm_compute. repeat split; reflexivity. } { vm_compute. reflexivity. } { reflexivity. } { intros []. }
  { right. split; reflexivity. } { exact U1. } { exact U2. } { exact U3. } { exact L3. }
  { vm_compute. repeat split; try reflexivity. intros [X|X]; discriminate X. } { discriminate. } { vm_compute. repeat split; reflexivity. } { reflexivity. }
  { exact three_participants. } { discriminate. } { intros z [<-|[<-|[]]]; reflexivity. }
  { right. split; [discriminate|]. exists (mkMultisig 2 [d_alice; d_bob]). split; [vm_compute; reflexivity|]. split; [vm_compute; reflexivity|vm_compute; discriminate]. }
  { intros lx _. apply demo_ms_appends. }
  { exact three_participants. } { discriminate. }
  { right. split; [discriminate|]. exists (mkMultisig 2 [d_alice; d_bob]). split; [vm_compute; reflexivity|]. split; [vm_compute; reflexivity|vm_compute; discriminate]. }
  { intros lx _ lz accounts _ X _. cbn [demo_ms e_multisig]. rewrite X. reflexivity. } { exact demo_ms_usual. }
  { split; [|repeat split; discriminate]. split; [vm_compute; reflexivity|split; [exact Hs|discriminate]]. }
  { intros z X. rewrite Hs in X. injection X as <-. split; [reflexivity|intros []]. }
  { split; [split; [vm_compute; reflexivity|split; [exact Hs|discriminate]]|]. repeat split; try discriminate. intro Z. exfalso. apply Z. reflexivity. }
  { vm_compute. reflexivity. } { reflexivity. } { discriminate. } { reflexivity. }
  { reflexivity. } { reflexivity. } { change (lamports (now_of multi_setup) (d_w t22_id) < two64). rewrite L1. reflexivity. } { change (lamports (now_of multi_setup) (d_b t22_id) < two64). rewrite L2. reflexivity. }
  { reflexivity. } { reflexivity. } { reflexivity. } { vm_compute. discriminate. }
  change (wrapped_mint_of demo_ms d_u t22_id) with (d_w t22_id) in *. change (backpointer_of demo_ms (d_w t22_id)) with (d_b t22_id) in *. change (escrow_of demo_ms d_u spl_token_id t22_id) with (d_esc spl_token_id t22_id) in *.
  assert (f = 0) by exact F. subst f. rewrite L1, L2 in R.
  destruct (R 78 100 5) as (copies2 & c2 & l5 & f2 & J5 & Cb2 & A5 & F2 & _ & W1 & W2 & W3 & W4 & _).
  { reflexivity. } { discriminate. } { vm_compute. discriminate. }
  assert (f2 = 0) by exact F2. subst f2.
  exists t1, l1, t2, l2, ixs, l3, copies, c, l4, copies2, c2, l5.
  split; [exact J1|]. split; [exact A1|]. split; [exact J2|]. split; [exact A2|]. split; [exact J3|]. split; [exact A3|]. split; [exact J4|]. split; [exact Cb|]. split; [exact A4|].
  rewrite Bs in V1, W1. split; [clear -V1; lia|]. split; [exact V2|]. split; [exact V3|]. split; [exact V4|].
  split; [exact J5|]. split; [exact Cb2|]. split; [exact A5|]. split; [clear -W1; lia|]. split; [exact W2|]. split; [exact W3|exact W4].
Qed.
