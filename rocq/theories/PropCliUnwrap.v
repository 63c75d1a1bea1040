(** * PropCliUnwrap.v — C43: the unwrap command. *)
From Verif Require Import Base Codec State Pda TokenProg Cpi Ata Meta Processor Builders Cli Tac PdaProofs TokProofs ProcProofs Spec HistorySpec CliSpec CloseProofs SpecLemmas
  InvState InvHist UnwrapLive PropWrap PropRedeem PropEscrow CliProofs CliSign CliCreate CodecProofs PropCreate PropCli PropCliEscrow PropCliWrap Demo Demo2 DemoHist.

Lemma agreed_ok o k : given o k -> agreed o k = Ok k.
Proof. intros [-> | ->]; [reflexivity|]. unfold agreed. rewrite pk_eqb_refl. reflexivity. Qed.
Lemma agreed_inv o k k' : agreed o k = Ok k' -> k' = k /\ given o k.
Proof.
  destruct o as [y|]; cbn [agreed]; intro H.
  - apply bind_ok in H. destruct H as ([] & E & H). apply guard_ok in E. apply pk_eqb_eq in E. injection H as <-. subst y. split; [reflexivity|right; reflexivity].
  - injection H as <-. split; [reflexivity|left; reflexivity].
Qed.
Lemma cli_unwrap_eval e payer x u utp wtp source recipient owner members n l ts tr mu w a esc :
  unwrap_asks payer x u utp wtp source recipient owner members n -> spl_or_t22 wtp -> spl_or_t22 utp ->
  token_account l source wtp ts -> 0 < lamports l source -> token_account l recipient utp tr -> t_mint tr = u -> 0 < lamports l recipient ->
  mint_account l u utp mu -> 0 < lamports l u ->
  w = wrapped_mint_of e u wtp -> a = authority_of e w -> esc = escrow_of e u utp wtp ->
  derivable e (wrapped_mint_seeds u wtp) tw_id -> derivable e (wrapped_mint_authority_seeds w) tw_id -> derivable e (ata_seeds a u utp) ata_id ->
  cli_unwrap e payer x l =
    partial_sign e payer [TxTokenWrap (build_unwrap tw_id esc recipient a u wtp utp source w owner members n)]
      (tx_signers (mkSigner payer true) (acting payer (ua_authority x)) (ua_multisig x) (ua_presigners x)).
Proof.
  intros (A1 & A2 & A3 & A4 & A5 & A6 & A7 & A8 & _) Tw Tu Hs Ls Hr Mr Lr Hu Lu Ew Ea Ee D1 D2 D3. unfold cli_unwrap. rewrite A1, A2, A3.
  rewrite (given_parse _ _ Tw A6). cbn [bind]. rewrite (given_parse _ _ Tu A5). cbn [bind].
  rewrite (owner_ok l source Ls). cbn [bind]. replace (a_owner (l source)) with wtp by (destruct Hs as (Q & _); symmetry; exact Q). rewrite (agreed_ok _ _ A6). cbn [bind].
  rewrite (mint_for_ok l recipient utp tr Hr Lr), Mr. cbn [bind]. rewrite (agreed_ok _ _ A4). cbn [bind].
  rewrite (owner_ok l u Lu). cbn [bind]. replace (a_owner (l u)) with utp by (destruct Hu as (Q & _); symmetry; exact Q). rewrite (agreed_ok _ _ A5). cbn [bind].
  rewrite (get_w_ok e u wtp D1), <- Ew. cbn [bind]. rewrite (get_a_ok e w D2), <- Ea. cbn [bind].
  rewrite Ew in Ea, D2. rewrite Ea in D3. rewrite (get_esc_ok e u utp wtp D1 D2 D3), <- Ee. cbn [bind]. cbv zeta.
  change (match ua_authority x with Some s => s | None => mkSigner payer true end) with (acting payer (ua_authority x)). rewrite A7, A8. reflexivity.
Qed.
Definition eight_unwrap (esc r a u wtp utp s w : pubkey) : list info :=
  [meta_w esc false; meta_w r false; meta_r a false; meta_r u false; meta_r wtp false; meta_r utp false; meta_w s false; meta_w w false].
Lemma eight_unwrap_unsigned esc r a u wtp utp s w m : In m (eight_unwrap esc r a u wtp utp s w) -> i_signer m = false.
Proof. unfold eight_unwrap. intros [<-|[<-|[<-|[<-|[<-|[<-|[<-|[<-|[]]]]]]]]]; reflexivity. Qed.
Lemma unwrap_writes esc r a u wtp utp s w ta members n k :
  writable (tx_metas (build_unwrap tw_id esc r a u wtp utp s w ta members n)) k -> k = esc \/ k = r \/ k = s \/ k = w.
Proof.
  intros (m & Hm & Hk & Hw). change (tx_metas _) with (nine (eight_unwrap esc r a u wtp utp s w) ta members) in Hm. unfold nine, eight_unwrap in Hm.
  destruct Hm as [<-|[<-|[<-|[<-|[<-|[<-|[<-|[<-|[<-|Hm]]]]]]]]]; cbn [meta_w meta_r i_key i_writable] in Hk, Hw; try discriminate Hw.
  - left. symmetry. exact Hk. - right. left. symmetry. exact Hk. - right. right. left. symmetry. exact Hk. - right. right. right. symmetry. exact Hk.
  - apply in_map_iff in Hm. destruct Hm as (y & <- & _). discriminate Hw.
Qed.
Lemma charge_can_receive payer fee e l p u r m t : can_receive e l p u r m t -> can_receive e (charge payer fee l) p u r m t.
Proof. intros (T & R). split; [apply charge_token; exact T|exact R]. Qed.

Lemma cli_unwrap_aux : forall e0 e past l fee payer x u utp wtp source recipient owner members n mu ts tr w a esc,
  history e0 past l -> ever (no_permanent_delegate u) past l -> same_curve e0 e -> spl_or_t22 wtp -> spl_or_t22 utp ->
  w = wrapped_mint_of e u wtp -> a = authority_of e w -> esc = escrow_of e u utp wtp ->
  derivable e (wrapped_mint_seeds u wtp) tw_id -> derivable e (wrapped_mint_authority_seeds w) tw_id -> derivable e (ata_seeds a u utp) ata_id ->
  unwrap_asks payer x u utp wtp source recipient owner members n ->
  may_act l wtp owner members -> helper_finds e l owner members -> helper_usual e ->
  wallet l payer -> fee + e_rent e 0 <= lamports l payer ->
  holder l wtp w source owner ts -> 0 < lamports l source -> 0 < n -> n <= t_amount ts -> n < two64 ->
  transferable l utp u mu -> 0 < lamports l u -> can_receive e l utp u recipient mu tr -> 0 < lamports l recipient -> recipient <> esc -> open_account l esc ->
  (native_mint u -> lamports l recipient + lamports l esc < two64 /\ e_rent e (data_len (a_data (l esc))) + n <= lamports l esc /\
                    e_rent e (data_len (a_data (l recipient))) <= lamports l recipient) ->
  exists t l' f, cli_unwrap e payer x l = Ok t /\ accepted e fee t l l' /\ fee_for mu (e_epoch e) n f /\ f <= n /\
    balance l' source = balance l source - n /\ supply l' w = supply l w - n /\ balance l' esc = balance l esc - n /\
    balance l' recipient = balance l recipient + (n - f) /\
    paid l l' payer fee /\ only_changed l l' [payer; source; esc; w; recipient].
Proof.
  intros e0 e past l fee payer x u utp wtp source recipient owner members n mu ts tr w a esc H Ev C Tw Tu Ew Ea Ee D1 D2 D3 Ask Act Hx Hy Wal Fee
    Hs Ls Pos Le Lt Hu Lu Hr Lr Ne Op Nat.
  pose proof Hs as (Hs1 & Ms & _). pose proof Hu as (Hu1 & _ & Nh). pose proof Hr as (Hr1 & Mr & _).
  pose proof (cli_unwrap_eval e payer x u utp wtp source recipient owner members n l ts tr mu w a esc Ask Tw Tu Hs1 Ls Hr1 Mr Lr Hu1 Lu Ew Ea Ee D1 D2 D3) as Cli.
  pose proof Ask as (_ & _ & _ & _ & _ & _ & Ao & Am & All).
  set (ix := build_unwrap tw_id esc recipient a u wtp utp source w owner members n) in *.
  assert (N9 : tx_metas ix = nine (eight_unwrap esc recipient a u wtp utp source w) owner members) by reflexivity.
  destruct (partial_sign_all e payer ix (eight_unwrap esc recipient a u wtp utp source w) (acting payer (ua_authority x)) (ua_multisig x) (ua_presigners x)) as (sigs & Ps & Cov).
  { rewrite Ao, Am. exact N9. } { intro m. apply eight_unwrap_unsigned. } { exact All. }
  rewrite Ps in Cli. set (acc := raised e payer [TxTokenWrap ix] (tx_metas ix)) in *.
  pose proof Wal as (Wo & Wd & Wt & Wa). set (l0 := charge payer fee l).
  assert (H0 : history e0 (l :: past) l0) by (apply charge_history; [exact H|exact Wo]).
  assert (Hk : map i_key acc = [esc; recipient; a; u; wtp; utp; source; w; owner] ++ members).
  { unfold acc. rewrite raised_keys, N9. unfold nine, eight_unwrap. cbn [map app meta_w meta_r i_key]. rewrite map_map. cbn [meta_r i_key]. rewrite map_id. reflexivity. }
  assert (Wr : forall k, k = esc \/ k = recipient \/ k = source \/ k = w -> writable acc k).
  { intros k Hkk. apply raised_writable; [left; reflexivity|]. rewrite N9. exists (meta_w k false). split; [|split; reflexivity]. unfold nine, eight_unwrap. apply in_or_app. left.
    destruct Hkk as [-> |[-> |[-> | ->]]]; [left; reflexivity|right; left; reflexivity|do 6 right; left; reflexivity|do 7 right; left; reflexivity]. }
  destruct (nine_tail e payer [TxTokenWrap ix] (eight_unwrap esc recipient a u wtp utp source w) owner members eq_refl) as [T8 T9].
  rewrite <- N9 in T8, T9. fold acc in T8, T9.
  pose proof (nine_tail_signed e payer ix (eight_unwrap esc recipient a u wtp utp source w) owner members eq_refl N9) as Ts. fold acc in Ts.
  pose proof (wallet_not_token l source wtp ts payer Wal Tw Hs1) as Ns1. pose proof (wallet_not_token l recipient utp tr payer Wal Tu Hr1) as Nr1.
  assert (Ne1 : esc <> payer) by (intro Q; symmetry in Q; revert Q; rewrite Ee; exact (ata_not_tw_wallet l payer e _ u utp Wal Tu)).
  pose proof (charge_other payer fee l esc Ne1) as Ce. pose proof (charge_other payer fee l source Ns1) as Cs. pose proof (charge_other payer fee l recipient Nr1) as Cr. fold l0 in Ce, Cs, Cr.
  assert (Hlive : exists l2, succeeds e acc (Unwrap n) l0 l2).
  { pose proof (C19_redeemable e0 e (l :: past) l0 u utp wtp acc members members n recipient source owner mu ts tr H0 (charge_ever payer fee u past l Ev) C Tw Tu) as G.
    cbv zeta in G. rewrite <- Ee, <- Ew, <- Ea in G. apply G; clear G.
    - exact D1. - exact D2. - exact D3. - exact Hk.
    - apply Wr. left. reflexivity. - apply Wr. right. left. reflexivity. - apply Wr. right. right. left. reflexivity. - apply Wr. right. right. right. reflexivity.
    - apply Hx; [intro k; apply charge_same|exact T9|exact Ts].
    - intros y Hyy. exact Hyy.
    - apply (nine_acts e payer ix (eight_unwrap esc recipient a u wtp utp source w) l0 wtp owner members N9); [intro m; apply eight_unwrap_unsigned|].
      unfold may_act, l0. rewrite !(proj1 (charge_same payer fee l owner)), !(proj2 (charge_same payer fee l owner)). exact Act.
    - apply Hy. exact Ts.
    - apply charge_holder. exact Hs. - exact Pos. - exact Le. - apply charge_transferable. exact Hu. - apply charge_can_receive. exact Hr. - exact Ne. - apply charge_open. exact Op.
    - intro Nm. destruct (Nat Nm) as [Q _]. unfold lamports. rewrite Ce, Cr. exact Q. }
  destruct Hlive as [l2 H2].
  destruct (C15_unwrap e acc n l0 l2 esc recipient a u wtp utp source w owner Lt) as (mu' & mw & ts' & te & tr' & f & ts2 & te2 & tr2 & _ & (B1 & B2 & B3 & B4 & B5 & B6 & B7 & B8) & (_ & F1 & F2 & _ & _ & _ & F4) & W1 & (E1 & E2 & E4 & _) & (R1 & R2 & _ & R4 & _) & S1 & (S2 & S3 & _) & _ & Fr).
  { exists members. exact Hk. } { exact H2. } { exact Ne. }
  assert (mu' = mu). { destruct B1 as [B1 _]. destruct Hu1 as (_ & Hu1 & _). unfold l0 in B1. rewrite (proj1 (charge_same payer fee l u)) in B1. rewrite Hu1 in B1. injection B1 as ->. reflexivity. } subst mu'.
  assert (ts' = ts). { destruct B3 as (_ & B3 & _). destruct Hs1 as (_ & Hs1 & _). rewrite Cs, Hs1 in B3. injection B3 as ->. reflexivity. } subst ts'.
  assert (tr' = tr). { destruct B7 as (_ & B7 & _). destruct Hr1 as (_ & Hr1 & _). rewrite Cr, Hr1 in B7. injection B7 as ->. reflexivity. } subst tr'.
  assert (Hw : mint_account l w wtp mw) by exact (charge_mint_inv payer fee l w wtp mw B2).
  pose proof (wallet_not_mint l w wtp mw payer Wal Tw Hw) as Nw1. pose proof (charge_other payer fee l w Nw1) as Cw. fold l0 in Cw.
  specialize (S1 (or_introl Nh)).
  assert (He : token_account l esc utp te) by (destruct B5 as (Q1 & Q2 & Q3); rewrite Ce in Q1, Q2; split; [exact Q1|split; [exact Q2|exact Q3]]).
  assert (Dts : a_data (l source) = DTok ts) by (destruct Hs1 as (_ & Q & _); exact Q).
  assert (Dte : a_data (l esc) = DTok te) by (destruct He as (_ & Q & _); exact Q).
  assert (Dtr : a_data (l recipient) = DTok tr) by (destruct Hr1 as (_ & Q & _); exact Q).
  assert (Dmw : a_data (l w) = DMint mw) by (destruct Hw as (_ & Q & _); exact Q).
  assert (Hp : l2 payer = l0 payer).
  { apply Fr; [intro Q; apply Ns1; symmetry; exact Q|intro Q; apply Ne1; symmetry; exact Q|intro Q; apply Nw1; symmetry; exact Q|intro Q; apply Nr1; symmetry; exact Q|left; exact Nh]. }
  exists (mkTx payer [TxTokenWrap ix] sigs), l2, f. split; [exact Cli|]. split; [|split; [exact F1|split; [exact F2|]]].
  - apply send_live; [exact Cov|exact Wo|exact Wd|exact Fee| |].
    + fold l0. cbn [run_ixs run_ix]. change (process_instruction e _ _ l0) with (outcome e acc (Unwrap n) l0). rewrite H2. reflexivity.
    + fold l0. apply rents_ok_intro. intros k Kw. apply one_writes in Kw. destruct Kw as [-> |Kw]; [rewrite Hp; apply rent_ok_same; reflexivity|].
      apply unwrap_writes in Kw. pose proof (history_inv _ _ _ H) as Iv.
      assert (Cases : native_part te n = 0 \/ native_mint u).
      { assert (Dc : {native_mint u} + {~ native_mint u}).
        { unfold native_mint. destruct (pk_dec u native_mint_id); [left; left; assumption|]. destruct (pk_dec u native_mint_2022_id); [left; right; assumption|right]. intros [Q|Q]; contradiction. }
        destruct Dc as [Dc|Dc]; [right; exact Dc|left]. apply (no_native_part e0 l esc utp te n Iv Tu He). rewrite B6. exact Dc. }
      assert (Szs : tok_space (t_exts ts2) = tok_space (t_exts ts)) by (destruct S3 as (_ & _ & _ & _ & _ & _ & Q); exact Q).
      assert (Sze : tok_space (t_exts te2) = tok_space (t_exts te)) by (destruct E4 as (_ & _ & _ & _ & _ & _ & Q); exact Q).
      assert (Szr : tok_space (t_exts tr2) = tok_space (t_exts tr)) by (destruct R4 as (_ & _ & _ & _ & _ & _ & Q); exact Q).
      destruct Kw as [-> |[-> |[-> | ->]]].
      * destruct Cases as [Z|Nm].
        -- apply rent_ok_same; [rewrite E1, Ce, Dte; cbn [a_data]; rewrite !tok_len; exact Sze|]. rewrite E1, Z, N.sub_0_r. reflexivity.
        -- apply rent_ok_enough. rewrite E1. cbn [a_data a_lamports]. rewrite tok_len, Sze. destruct (Nat Nm) as (_ & Q & _). rewrite Dte, tok_len in Q.
           unfold lamports at 1. rewrite Ce. change (a_lamports (l esc)) with (lamports l esc). assert (native_part te n <= n) by (unfold native_part; destruct (t_native te); lia). lia.
      * destruct Cases as [Z|Nm].
        -- apply rent_ok_same; [rewrite R1, Cr, Dtr; cbn [a_data]; rewrite !tok_len; exact Szr|]. rewrite R1, Z, N.add_0_r. reflexivity.
        -- apply rent_ok_enough. rewrite R1. cbn [a_data a_lamports]. rewrite tok_len, Szr. destruct (Nat Nm) as (_ & _ & Q). rewrite Dtr, tok_len in Q.
           unfold lamports at 1. rewrite Cr. change (a_lamports (l recipient)) with (lamports l recipient). lia.
      * apply rent_ok_same; [rewrite S1, Cs, Dts; cbn [a_data]; rewrite !tok_len; exact Szs|]. rewrite S1. reflexivity.
      * apply rent_ok_same; [|rewrite W1; reflexivity]. rewrite W1, Cw, Dmw. reflexivity.
  - unfold balance, supply. rewrite S1, E1, R1, W1, Dts, Dte, Dtr, Dmw. cbn [a_data t_amount m_supply]. split; [exact S2|]. split; [reflexivity|]. split; [exact E2|]. split; [exact R2|].
    split.
    + unfold paid, lamports. rewrite Hp. unfold l0, charge. rewrite upd_same. cbn [with_lamports a_lamports a_data a_owner]. split; [unfold lamports in Fee; lia|split; reflexivity].
    + intros k Hkn. assert (K0 : k <> payer) by (intro Q; apply Hkn; left; symmetry; exact Q). rewrite <- (charge_other payer fee l k K0). fold l0.
      apply Fr; [| | | |left; exact Nh]; intro Q; apply Hkn; symmetry in Q.
      * right. left. exact Q. * right. right. left. exact Q. * do 3 right. left. exact Q. * do 4 right. left. exact Q.
Qed.
(** ** C43.  unwrap: in every state a history can reach (no permanent delegate so far), a holder whose wrapped tokens can be
    moved, with a recipient that can receive (as C19 asks), and everybody asked signing, gets [n] unwrapped tokens less
    the mint's transfer fee out of the escrow for [n] wrapped ones; the payer pays the network fee, nothing else
    changes. *)
Theorem C43_unwraps : forall e0 e past l fee payer x u utp wtp source recipient owner members n mu ts tr,
  history e0 past l -> ever (no_permanent_delegate u) past l -> same_curve e0 e -> spl_or_t22 wtp -> spl_or_t22 utp ->
  let w := wrapped_mint_of e u wtp in let a := authority_of e w in let esc := escrow_of e u utp wtp in
  derivable e (wrapped_mint_seeds u wtp) tw_id -> derivable e (wrapped_mint_authority_seeds w) tw_id -> derivable e (ata_seeds a u utp) ata_id ->
  unwrap_asks payer x u utp wtp source recipient owner members n ->
  may_act l wtp owner members -> helper_finds e l owner members -> helper_usual e ->
  wallet l payer -> fee + e_rent e 0 <= lamports l payer ->
  holder l wtp w source owner ts -> 0 < lamports l source -> 0 < n -> n <= t_amount ts -> n < two64 ->
  transferable l utp u mu -> 0 < lamports l u -> can_receive e l utp u recipient mu tr -> 0 < lamports l recipient -> recipient <> esc -> open_account l esc ->
  (native_mint u -> lamports l recipient + lamports l esc < two64 /\ e_rent e (data_len (a_data (l esc))) + n <= lamports l esc /\
                    e_rent e (data_len (a_data (l recipient))) <= lamports l recipient) ->
  exists t l' f, cli_unwrap e payer x l = Ok t /\ accepted e fee t l l' /\ fee_for mu (e_epoch e) n f /\ f <= n /\
    balance l' source = balance l source - n /\ supply l' w = supply l w - n /\ balance l' esc = balance l esc - n /\
    balance l' recipient = balance l recipient + (n - f) /\
    paid l l' payer fee /\ only_changed l l' [payer; source; esc; w; recipient].
Proof.
  intros e0 e past l fee payer x u utp wtp source recipient owner members n mu ts tr H Ev C Tw Tu w a esc D1 D2 D3 Ask Act Hx Hy Wal Fee
    Hs Ls Pos Le Lt Hu Lu Hr Lr Ne Op Nat.
  exact (cli_unwrap_aux e0 e past l fee payer x u utp wtp source recipient owner members n mu ts tr w a esc H Ev C Tw Tu eq_refl eq_refl eq_refl D1 D2 D3 Ask Act Hx Hy Wal Fee
    Hs Ls Pos Le Lt Hu Lu Hr Lr Ne Op Nat).
Qed.

(** ** What the commands send.  Whatever the ledger and the arguments, a transaction sent by wrap is one Wrap of the amount
    given, from the source given, for the mint given or the source's mint, to the recipient given or the payer's
    associated account of the wrapped mint, into the genuine escrow. *)
Lemma escrow_found e u utp wtp k : get_escrow_address e u utp wtp = Ok k -> k = escrow_of e u utp wtp.
Proof.
  unfold get_escrow_address, get_escrow_address_for_program.
  change (get_wrapped_mint_address_for_program e u wtp tw_id) with (get_wrapped_mint_address e u wtp). intro H.
  apply bind_ok in H. destruct H as (w & E & H). apply get_wrapped_mint_address_ok in E. subst w.
  change (get_wrapped_mint_authority_for_program e (wrapped_mint_of e u wtp) tw_id) with (get_wrapped_mint_authority e (wrapped_mint_of e u wtp)) in H.
  apply bind_ok in H. destruct H as (a & E & H). apply get_wrapped_mint_authority_ok in E. subst a.
  apply get_ata_ok in H. rewrite H. reflexivity.
Qed.
Lemma mint_for_inv l k u : get_mint_for_token_account l k = Ok u -> exists t, a_data (l k) = DTok t /\ t_mint t = u.
Proof.
  unfold get_mint_for_token_account, get_account. intro H. destruct (a_lamports (l k) =? 0); [discriminate H|]. cbn [bind] in H.
  apply bind_ok in H. destruct H as (t & E & H). injection H as <-. exists t. split; [|reflexivity]. apply pod_unpack_tok_inv in E. exact (proj1 E).
Qed.
Lemma owner_inv l k p : get_account_owner l k = Ok p -> p = a_owner (l k).
Proof. unfold get_account_owner, get_account. intro H. destruct (a_lamports (l k) =? 0); [discriminate H|]. injection H as <-. reflexivity. Qed.
Theorem C42_means : forall e payer x l t, wa_amount x < two64 -> cli_wrap e payer x l = Ok t ->
  exists u utp r i,
    let w := wrapped_mint_of e u (wa_wtp x) in
    (wa_mint x = Some u \/ wa_mint x = None /\ exists ts, a_data (l (wa_source x)) = DTok ts /\ t_mint ts = u) /\
    (wa_utp x = Some utp \/ wa_utp x = None /\ a_owner (l (wa_source x)) = utp) /\
    (wa_recipient x = Some r \/ wa_recipient x = None /\ r = ata_of e payer w (wa_wtp x)) /\
    tr_payer t = payer /\ tr_ixs t = [TxTokenWrap i] /\ tx_prog i = tw_id /\ unpack (tx_data i) = Ok (Wrap (wa_amount x)) /\
    map i_key (tx_metas i) = [r; w; authority_of e w; utp; wa_wtp x; wa_source x; u; escrow_of e u utp (wa_wtp x); sg_key (acting payer (wa_authority x))] ++ map sg_key (wa_multisig x).
Proof.
  intros e payer x l t Lt H. unfold cli_wrap in H. apply bind_ok in H. destruct H as (q1 & _ & H). apply bind_ok in H. destruct H as (q2 & _ & H).
  apply bind_ok in H. destruct H as (u & E1 & H). apply bind_ok in H. destruct H as (w & Ew & H). apply get_wrapped_mint_address_ok in Ew.
  apply bind_ok in H. destruct H as (a & Ea & H). apply get_wrapped_mint_authority_ok in Ea. apply bind_ok in H. destruct H as (r & E2 & H). cbv zeta in H.
  apply bind_ok in H. destruct H as (utp & E3 & H). apply bind_ok in H. destruct H as (esc & Ee & H). apply escrow_found in Ee.
  apply partial_sign_inv in H. destruct H as (P1 & P2 & _). exists u, utp, r.
  exists (build_wrap tw_id r w a utp (wa_wtp x) (wa_source x) u esc (sg_key (acting payer (wa_authority x))) (map sg_key (wa_multisig x)) (wa_amount x)).
  cbv zeta. split; [|split; [|split; [|split; [exact P1|split; [exact P2|split; [reflexivity|split]]]]]].
  - destruct (wa_mint x) as [m|]; [injection E1 as ->; left; reflexivity|right]. split; [reflexivity|exact (mint_for_inv l (wa_source x) u E1)].
  - destruct (wa_utp x) as [m|]; [injection E3 as ->; left; reflexivity|right]. split; [reflexivity|symmetry; exact (owner_inv l (wa_source x) utp E3)].
  - destruct (wa_recipient x) as [m|]; [injection E2 as ->; left; reflexivity|right]. split; [reflexivity|]. rewrite <- Ew. exact (get_ata_ok _ _ _ _ _ E2).
  - cbn [tx_data build_wrap]. apply unpack_pack. exact Lt.
  - rewrite <- Ew, <- Ea, <- Ee. cbn [tx_metas build_wrap map app meta_w meta_r i_key]. rewrite map_map. cbn [meta_r i_key]. rewrite map_id. reflexivity.
Qed.
(** A transaction sent by unwrap is one Unwrap of the amount given, from the source to the recipient given, for the
    recipient's mint; every optional argument given agrees with the ledger, otherwise nothing is sent. *)
Theorem C43_means : forall e payer x l t, ua_amount x < two64 -> cli_unwrap e payer x l = Ok t ->
  exists u i tr,
    let wtp := a_owner (l (ua_source x)) in let utp := a_owner (l u) in let w := wrapped_mint_of e u wtp in
    a_data (l (ua_recipient x)) = DTok tr /\ t_mint tr = u /\
    given (ua_wtp x) wtp /\ given (ua_mint x) u /\ given (ua_utp x) utp /\
    tr_payer t = payer /\ tr_ixs t = [TxTokenWrap i] /\ tx_prog i = tw_id /\ unpack (tx_data i) = Ok (Unwrap (ua_amount x)) /\
    map i_key (tx_metas i) = [escrow_of e u utp wtp; ua_recipient x; authority_of e w; u; wtp; utp; ua_source x; w; sg_key (acting payer (ua_authority x))] ++ map sg_key (ua_multisig x).
Proof.
  intros e payer x l t Lt H. unfold cli_unwrap in H. apply bind_ok in H. destruct H as (q1 & _ & H). apply bind_ok in H. destruct H as (q2 & _ & H).
  apply bind_ok in H. destruct H as (q3 & E1 & H). apply bind_ok in H. destruct H as (wtp & E2 & H). apply owner_inv in E1. apply agreed_inv in E2. destruct E2 as [-> E2].
  apply bind_ok in H. destruct H as (q4 & E3 & H). apply bind_ok in H. destruct H as (u & E4 & H). apply mint_for_inv in E3. apply agreed_inv in E4. destruct E4 as [-> E4].
  apply bind_ok in H. destruct H as (q5 & E5 & H). apply bind_ok in H. destruct H as (utp & E6 & H). apply owner_inv in E5. apply agreed_inv in E6. destruct E6 as [-> E6].
  apply bind_ok in H. destruct H as (w & Ew & H). apply get_wrapped_mint_address_ok in Ew. apply bind_ok in H. destruct H as (a & Ea & H). apply get_wrapped_mint_authority_ok in Ea.
  apply bind_ok in H. destruct H as (esc & Ee & H). apply escrow_found in Ee. cbv zeta in H. apply partial_sign_inv in H. destruct H as (P1 & P2 & _).
  destruct E3 as (tr & Dr & Mr). rewrite E1 in *. rewrite E5 in *. exists q4.
  exists (build_unwrap tw_id esc (ua_recipient x) a q4 (a_owner (l (ua_source x))) (a_owner (l q4)) (ua_source x) w (sg_key (acting payer (ua_authority x))) (map sg_key (ua_multisig x)) (ua_amount x)).
  exists tr. cbv zeta. split; [exact Dr|]. split; [exact Mr|]. split; [exact E2|]. split; [exact E4|]. split; [exact E6|]. split; [exact P1|]. split; [exact P2|]. split; [reflexivity|]. split.
  - cbn [tx_data build_unwrap]. apply unpack_pack. exact Lt.
  - rewrite <- Ew, <- Ea, <- Ee. cbn [tx_metas build_unwrap map app meta_w meta_r i_key]. rewrite map_map. cbn [meta_r i_key]. rewrite map_id. reflexivity.
Qed.
Lemma demo_helper_usual : helper_usual demo_env.
Proof. intros accounts _ l1. exists []. split; [reflexivity|intros k []]. Qed.
(** Alice unwraps 40, naming only source, recipient and amount. *)
Definition alice_unwraps : unwrap_args := mkUnwrapArgs d_alice_w d_alice_u 40 None None None None [] [].
Example C43_example : exists t l', cli_unwrap demo_env d_alice alice_unwraps (now_of story) = Ok t /\ accepted demo_env 5 t (now_of story) l' /\
  balance l' d_alice_u = 840 /\ balance l' d_alice_w = 110 /\ paid (now_of story) l' d_alice 5.
Proof.
  assert (S : exists ts, a_data (now_of story d_alice_w) = DTok ts) by (eexists; vm_compute; reflexivity). destruct S as [ts Hs].
  assert (R : exists tr, a_data (now_of story d_alice_u) = DTok tr) by (eexists; vm_compute; reflexivity). destruct R as [tr Hr].
  assert (E : exists te, a_data (now_of story (d_esc spl_token_id t22_id)) = DTok te) by (eexists; vm_compute; reflexivity). destruct E as [te He].
  assert (M : exists mu, a_data (now_of story d_u) = DMint mu) by (eexists; vm_compute; reflexivity). destruct M as [mu Hm].
  destruct (C43_unwraps demo_env demo_env (past_of story) (now_of story) 5 d_alice alice_unwraps d_u spl_token_id t22_id d_alice_w d_alice_u d_alice [] 40 mu ts tr)
    as (t & l' & f & H1 & H2 & H5 & _ & H3 & _ & _ & H6 & H4 & _).
  - apply played_history. vm_compute. reflexivity.
  - exact story_no_pd.
  - apply same_curve_refl.
  - right; reflexivity.
  - left; reflexivity.
  - apply demo_derivable.
  - apply demo_derivable.
  - apply demo_derivable.
  - unfold unwrap_asks, alice_unwraps. cbn [ua_source ua_recipient ua_wtp ua_amount ua_mint ua_utp ua_authority ua_multisig ua_presigners acting sg_key map].
    split; [reflexivity|]. split; [reflexivity|]. split; [reflexivity|]. split; [left; reflexivity|]. split; [left; reflexivity|]. split; [left; reflexivity|].
    split; [reflexivity|]. split; [reflexivity|]. split; [intros s []|]. intros k _. right. intros s [<-|[]] _. reflexivity.
  - left. split; [reflexivity|]. intros m X. exfalso. vm_compute in X. discriminate X.
  - intros l1 accounts _ _ _. reflexivity.
  - exact demo_helper_usual.
  - vm_compute. repeat split; reflexivity.
  - vm_compute. discriminate.
  - revert Hs. vm_compute. intro X. inversion X; subst ts. repeat split; auto; discriminate.
  - vm_compute. reflexivity.
  - lia.
  - revert Hs. vm_compute. intro X. inversion X; subst ts. discriminate.
  - reflexivity.
  - revert Hm. vm_compute. intro X. inversion X; subst mu. repeat split; auto; intros; discriminate.
  - vm_compute. reflexivity.
  - revert Hr. vm_compute. intro X. inversion X; subst tr. revert Hm. vm_compute. intro Y. inversion Y; subst mu.
    split; [repeat split; discriminate|]. split; [reflexivity|]. split; [reflexivity|]. split; [discriminate|]. intro Z. exfalso. apply Z. reflexivity.
  - vm_compute. reflexivity.
  - vm_compute. discriminate.
  - intros t X. change (a_data (now_of story (d_esc spl_token_id t22_id)) = DTok t) in X. rewrite He in X. inversion X; subst t. clear X. revert He. vm_compute. intro X. inversion X; subst te. split; [reflexivity|intros []].
  - intros [X|X]; exfalso; vm_compute in X; discriminate X.
  - exists t, l'. split; [exact H1|]. split; [exact H2|].
    assert (f = 0). { revert H5 Hm. clear. intros H5 Hm. revert Hm. vm_compute. intro X. inversion X; subst mu. exact H5. }
    subst f. split; [rewrite H6; vm_compute; reflexivity|]. split; [rewrite H3; vm_compute; reflexivity|exact H4].
Qed.

(** A 2-of-2 multisig owner, Carol paying: Alice signs now, Bob has signed before (his key is named without a signature,
    the signature is handed over separately). *)
Definition d_carol : pubkey := PkRaw 110.
Definition d_ms : pubkey := PkRaw 111.
Definition d_ms_u : pubkey := PkRaw 112.
Definition ms_story : list cmd := setup ++
  [ CFund d_carol 5000; CAlloc d_ms 355 5000 spl_token_id; CTok spl_token_id [meta_w d_ms false; meta_r d_alice false; meta_r d_bob false] (TiInitializeMultisig (mkMultisig 2 [d_alice; d_bob]));
    CAlloc d_ms_u 165 5000 spl_token_id; CTok spl_token_id [meta_w d_ms_u false; meta_r d_u false] (TiInitializeAccount d_ms false);
    CTok spl_token_id [meta_w d_u false; meta_w d_ms_u false; meta_r d_mintauth true] (TiMintTo 500) ].
Definition demo_ms : env :=
  mkEnv (fun _ _ => true) (fun n => n * 10) 5 false
        (fun _ _ _ l => Ok l) (fun _ _ rest => Ok (map (fun i => meta_r (i_key i) true) rest)) (fun _ _ rest => Ok (map i_key rest))
        (fun _ l _ => Ok l) (fun _ _ _ => Ok None) (fun _ _ => true) (fun s => str_len s)
        (fun b => PkRaw (1000 + from_le b)) (fun _ => true) 100 None
        (fun _ => ""%string) (fun _ => ""%string) (fun _ => ""%string) (fun _ => ""%string) (fun _ => ""%string)
        (fun _ => ""%string) (fun _ => ""%string)
        (fun _ => None) (fun _ => None) (fun _ => None).
Definition ms_wraps : wrap_args :=
  mkWrapArgs d_ms_u t22_id 70 (Some (mkSigner d_ms false)) (Some d_u) (Some d_alice_w) (Some spl_token_id) [mkSigner d_alice true; mkSigner d_bob false] [mkSigner d_bob true].
Example C42_multisig_example : exists t l', cli_wrap demo_ms d_carol ms_wraps (now_of ms_story) = Ok t /\ accepted demo_ms 5 t (now_of ms_story) l' /\
  balance l' d_ms_u = 430 /\ balance l' (d_esc spl_token_id t22_id) = 70 /\ paid (now_of ms_story) l' d_carol 5.
Proof.
  assert (S : exists ts, a_data (now_of ms_story d_ms_u) = DTok ts) by (eexists; vm_compute; reflexivity). destruct S as [ts Hs].
  assert (R : exists tr, a_data (now_of ms_story d_alice_w) = DTok tr) by (eexists; vm_compute; reflexivity). destruct R as [tr Hr].
  assert (E : exists te, a_data (now_of ms_story (d_esc spl_token_id t22_id)) = DTok te) by (eexists; vm_compute; reflexivity). destruct E as [te He].
  assert (M : exists mu, a_data (now_of ms_story d_u) = DMint mu) by (eexists; vm_compute; reflexivity). destruct M as [mu Hm].
  assert (W : exists mw, a_data (now_of ms_story (d_w t22_id)) = DMint mw) by (eexists; vm_compute; reflexivity). destruct W as [mw Hw].
  destruct (C42_wraps demo_env demo_ms (past_of ms_story) (now_of ms_story) 5 d_carol ms_wraps d_u spl_token_id t22_id d_ms_u d_alice_w d_ms [d_alice; d_bob] 70 mu mw ts te tr)
    as (t & l' & f & H1 & H2 & H5 & _ & H3 & H6 & _ & _ & H4 & _).
  - apply played_history. vm_compute. reflexivity.
  - intros s p. reflexivity.
  - right; reflexivity.
  - left; reflexivity.
  - exact (demo_derivable (wrapped_mint_seeds d_u t22_id) tw_id).
  - exact (demo_derivable (wrapped_mint_authority_seeds (d_w t22_id)) tw_id).
  - exact (demo_derivable (ata_seeds (d_a t22_id) d_u spl_token_id) ata_id).
  - unfold wrap_asks, ms_wraps. cbn [wa_source wa_wtp wa_amount wa_mint wa_utp wa_recipient wa_authority wa_multisig wa_presigners acting sg_key map].
    split; [reflexivity|]. split; [reflexivity|]. split; [reflexivity|]. split; [right; reflexivity|]. split; [right; reflexivity|]. split; [left; reflexivity|].
    split; [reflexivity|]. split; [reflexivity|]. split.
    + intros s [<-|[]]. split; [right; right; left; reflexivity|reflexivity].
    + intros k [<-|[<-|[<-|[]]]].
      * right. intros s [<-|[<-|[]]] X; discriminate X.
      * right. intros s [<-|[<-|[]]] X; [reflexivity|discriminate X].
      * left. exists (mkSigner d_bob true). split; [left; reflexivity|reflexivity].
  - right. split; [discriminate|]. exists (mkMultisig 2 [d_alice; d_bob]). split; [vm_compute; reflexivity|]. split; [vm_compute; reflexivity|vm_compute; discriminate].
  - intros l1 accounts _ X _. cbn [demo_ms e_extra].
    assert (Y : map i_key (skipn 9 accounts) = [d_alice; d_bob]).
    { do 9 (destruct accounts as [|? accounts]; [discriminate X|]). cbn [skipn map] in X. injection X as _ X. exact X. }
    rewrite <- Y, map_map. reflexivity.
  - intros m _. vm_compute. reflexivity.
  - vm_compute. repeat split; reflexivity.
  - vm_compute. discriminate.
  - revert Hs. vm_compute. intro X. inversion X; subst ts. repeat split; auto; discriminate.
  - intros t X. change (a_data (now_of ms_story d_ms_u) = DTok t) in X. rewrite Hs in X. inversion X; subst t. clear X. revert Hs. vm_compute. intro X. inversion X; subst ts. split; [reflexivity|intros []].
  - vm_compute. reflexivity.
  - lia.
  - revert Hs. vm_compute. intro X. inversion X; subst ts. discriminate.
  - reflexivity.
  - vm_compute. discriminate.
  - revert Hm. vm_compute. intro X. inversion X; subst mu. repeat split; auto; intros; discriminate.
  - revert He. vm_compute. intro X. inversion X; subst te. repeat split; auto; discriminate.
  - revert He. vm_compute. intro X. inversion X; subst te. reflexivity.
  - revert Hm. vm_compute. intro Y. inversion Y; subst mu. intro Z. exfalso. apply Z. reflexivity.
  - revert Hw. vm_compute. intro X. inversion X; subst mw. repeat split; auto; discriminate.
  - revert Hr. vm_compute. intro X. inversion X; subst tr. repeat split; auto; discriminate.
  - revert Hr. vm_compute. intro X. inversion X; subst tr. reflexivity.
  - revert Hr. vm_compute. intro X. inversion X; subst tr. reflexivity.
  - right. vm_compute. reflexivity.
  - intros [X|X]; exfalso; vm_compute in X; discriminate X.
  - exists t, l'. split; [exact H1|]. split; [exact H2|].
    assert (f = 0). { revert H5 Hm. clear. intros H5 Hm. revert Hm. vm_compute. intro X. inversion X; subst mu. exact H5. }
    subst f. split; [rewrite H3; vm_compute; reflexivity|]. split; [|exact H4].
    change (escrow_of demo_ms d_u spl_token_id t22_id) with (d_esc spl_token_id t22_id) in H6. rewrite H6. vm_compute. reflexivity.
Qed.
