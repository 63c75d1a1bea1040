(** * PropCliWrap.v — C42: the wrap command. *)
From Verif Require Import Base Codec State Pda TokenProg Cpi Ata Meta Processor Builders Cli Tac PdaProofs TokProofs ProcProofs Spec HistorySpec CliSpec CloseProofs SpecLemmas
  InvState InvHist UnwrapLive PropWrap PropLive PropEscrow CliProofs CliSign CliCreate PropCreate PropCliEscrow Demo Demo2 DemoHist.

(** Charging the fee changes lamports only. *)
Lemma charge_same payer fee l k : a_data (charge payer fee l k) = a_data (l k) /\ a_owner (charge payer fee l k) = a_owner (l k).
Proof.
  unfold charge, upd. destruct (pk_eqb payer k) eqn:E; [|split; reflexivity]. apply pk_eqb_eq in E. subst k. split; reflexivity.
Qed.
Lemma charge_other payer fee l k : k <> payer -> charge payer fee l k = l k.
Proof. intro N. unfold charge. apply upd_other. intro E. apply N. symmetry. exact E. Qed.
Lemma charge_token payer fee l k p t : token_account l k p t -> token_account (charge payer fee l) k p t.
Proof. intros (O & D & S). destruct (charge_same payer fee l k) as [E1 E2]. split; [rewrite E2; exact O|split; [rewrite E1; exact D|exact S]]. Qed.
Lemma charge_mint payer fee l k p m : mint_account l k p m -> mint_account (charge payer fee l) k p m.
Proof. intros (O & D & S). destruct (charge_same payer fee l k) as [E1 E2]. split; [rewrite E2; exact O|split; [rewrite E1; exact D|exact S]]. Qed.
Lemma charge_mint_inv payer fee l k p m : mint_account (charge payer fee l) k p m -> mint_account l k p m.
Proof. intros (O & D & S). destruct (charge_same payer fee l k) as [E1 E2]. split; [rewrite <- E2; exact O|split; [rewrite <- E1; exact D|exact S]]. Qed.
Lemma charge_holder payer fee l p w source owner t : holder l p w source owner t -> holder (charge payer fee l) p w source owner t.
Proof. intros (T & R). split; [apply charge_token; exact T|exact R]. Qed.
Lemma charge_transferable payer fee l p u m : transferable l p u m -> transferable (charge payer fee l) p u m.
Proof. intros (T & R). split; [apply charge_mint; exact T|exact R]. Qed.
Lemma charge_open payer fee l k : open_account l k -> open_account (charge payer fee l) k.
Proof. intros T t D. apply T. rewrite <- (proj1 (charge_same payer fee l k)). exact D. Qed.
Lemma charge_ever payer fee u past l :
  ever (no_permanent_delegate u) past l -> ever (no_permanent_delegate u) (l :: past) (charge payer fee l).
Proof.
  intros H x [<-|Hx]; [|exact (H x Hx)]. intros m M. apply (H l); [left; reflexivity|]. exact (charge_mint_inv _ _ _ _ _ _ M).
Qed.
Lemma charge_history e0 past l payer fee : history e0 past l -> a_owner (l payer) = system_id -> history e0 (l :: past) (charge payer fee l).
Proof. intros H O. apply (h_step e0 past l AWorld _ H). apply st_world. apply charge_world. exact O. Qed.
Lemma wallet_not_token l k p t payer : wallet l payer -> spl_or_t22 p -> token_account l k p t -> k <> payer.
Proof. intros (O & _) T (O2 & _) E. subst k. rewrite O in O2. destruct T as [T|T]; rewrite T in O2; discriminate O2. Qed.
Lemma wallet_not_mint l k p t payer : wallet l payer -> spl_or_t22 p -> mint_account l k p t -> k <> payer.
Proof. intros (O & _) T (O2 & _) E. subst k. rewrite O in O2. destruct T as [T|T]; rewrite T in O2; discriminate O2. Qed.
(** Outside of wrapped SOL no lamports travel with tokens. *)
Lemma no_native_part e0 l k p t n : Inv e0 l -> spl_or_t22 p -> token_account l k p t -> ~ native_mint (t_mint t) -> native_part t n = 0.
Proof.
  intros I T (O & D & _) N. assert (TP : token_program (a_owner (l k))) by (rewrite O; exact T).
  pose proof (inv_tok _ _ _ _ I TP D) as (_ & _ & A & _). rewrite O in A. unfold native_part. destruct (t_native t) as [r|] eqn:E; [|reflexivity].
  exfalso. apply N. apply (native_mint_b p). apply A. discriminate.
Qed.
(** The accounts of a wrap or unwrap transaction: the owner, or its members, have signed. *)
Lemma nine_acts e payer i ms l p owner members :
  tx_metas i = nine ms owner members -> (forall m, In m ms -> i_signer m = false) -> may_act l p owner members ->
  owner_acts (raised e payer [TxTokenWrap i] (tx_metas i)) l p owner members.
Proof.
  intros Hi Hms [[Hm Ha]|[Hm Ha]].
  - left. split; [exact Hm|]. split; [|exact Ha]. apply raised_signed; [left; reflexivity|]. rewrite Hi, (nine_signed ms owner members owner Hms), Hm. left. reflexivity.
  - right. split; [exact Hm|]. split; [|exact Ha]. intros k Hk. apply raised_signed; [left; reflexivity|]. rewrite Hi, (nine_signed ms owner members k Hms).
    destruct members; [contradiction|exact Hk].
Qed.
Lemma nine_tail e payer ixs ms ta members :
  length ms = 8%nat ->
  map i_key (skipn 8 (raised e payer ixs (nine ms ta members))) = ta :: members /\ map i_key (skipn 9 (raised e payer ixs (nine ms ta members))) = members.
Proof.
  intro L. do 9 (destruct ms as [|? ms]; try discriminate L). unfold nine, raised. cbn [app map skipn]. rewrite !map_map. cbn [i_key meta_r].
  assert (E : map (fun x : pubkey => x) members = members) by apply map_id. split; [f_equal; exact E|exact E].
Qed.
Lemma nine_tail_signed e payer i ms ta members :
  length ms = 8%nat -> tx_metas i = nine ms ta members ->
  forall x, In x (skipn 9 (raised e payer [TxTokenWrap i] (tx_metas i))) -> i_signer x = true.
Proof.
  intros L Hi x Hx. assert (G : In (i_key x) members).
  { rewrite <- (proj2 (nine_tail e payer [TxTokenWrap i] ms ta members L)). rewrite <- Hi. apply in_map. exact Hx. }
  assert (S : must_sign e payer [TxTokenWrap i] (i_key x) = true).
  { apply one_signs. right. rewrite Hi. exists (meta_r (i_key x) true). split; [|split; reflexivity].
    unfold nine. apply in_or_app. right. right. apply in_map_iff. exists (i_key x). split; [reflexivity|exact G]. }
  assert (In x (raised e payer [TxTokenWrap i] (tx_metas i))) as Hin.
  { rewrite <- (firstn_skipn 9 (raised e payer [TxTokenWrap i] (tx_metas i))). apply in_or_app. right. exact Hx. }
  unfold raised in Hin. apply in_map_iff in Hin. destruct Hin as (m & <- & _). exact S.
Qed.

(** The command finds what was not said. *)
Lemma mint_for_ok l k p t : token_account l k p t -> 0 < lamports l k -> get_mint_for_token_account l k = Ok (t_mint t).
Proof.
  intros (_ & D & S) L. unfold get_mint_for_token_account, get_account. unfold lamports in L. destruct (a_lamports (l k) =? 0) eqn:E; [apply N.eqb_eq in E; lia|].
  cbn [bind]. rewrite D, (pod_unpack_tok_ok t S). reflexivity.
Qed.
Lemma given_parse o p : spl_or_t22 p -> given o p -> parse_opt o = Ok o.
Proof. intros T [-> | ->]; [reflexivity|]. unfold parse_opt. rewrite (parse_ok p T). reflexivity. Qed.
Lemma cli_wrap_eval e payer x u utp wtp source recipient owner members n l ts w a esc :
  wrap_asks e payer x u utp wtp source recipient owner members n -> spl_or_t22 wtp -> spl_or_t22 utp ->
  token_account l source utp ts -> t_mint ts = u -> 0 < lamports l source ->
  w = wrapped_mint_of e u wtp -> a = authority_of e w -> esc = escrow_of e u utp wtp ->
  derivable e (wrapped_mint_seeds u wtp) tw_id -> derivable e (wrapped_mint_authority_seeds w) tw_id -> derivable e (ata_seeds a u utp) ata_id ->
  cli_wrap e payer x l =
    partial_sign e payer [TxTokenWrap (build_wrap tw_id recipient w a utp wtp source u esc owner members n)]
      (tx_signers (mkSigner payer true) (acting payer (wa_authority x)) (wa_multisig x) (wa_presigners x)).
Proof.
  intros (A1 & A2 & A3 & A4 & A5 & A6 & A7 & A8 & _) Tw Tu Hs Ms L Ew Ea Ee D1 D2 D3. unfold cli_wrap. rewrite A1, A2, A3.
  rewrite (parse_ok wtp Tw). cbn [bind]. rewrite (given_parse _ _ Tu A5). cbn [bind].
  assert (E1 : match wa_mint x with Some m => Ok m | None => get_mint_for_token_account l source end = Ok u).
  { destruct A4 as [-> | ->]; [|reflexivity]. rewrite (mint_for_ok l source utp ts Hs L), Ms. reflexivity. }
  rewrite E1. cbn [bind]. rewrite (get_w_ok e u wtp D1), <- Ew. cbn [bind]. rewrite (get_a_ok e w D2), <- Ea. cbn [bind].
  assert (E2 : match wa_recipient x with Some k => Ok k | None => get_associated_token_address e payer w wtp end = Ok recipient).
  { destruct A6 as [-> |(-> & -> & D)]; [reflexivity|]. rewrite Ew. exact (get_ata_live e payer _ wtp D). }
  rewrite E2. cbn [bind]. cbv zeta.
  assert (E3 : match wa_utp x with Some p => Ok p | None => get_account_owner l source end = Ok utp).
  { destruct A5 as [-> | ->]; [|reflexivity]. rewrite (owner_ok l source L). destruct Hs as (-> & _). reflexivity. }
  rewrite E3. cbn [bind]. rewrite Ew in Ea, D2. rewrite Ea in D3. rewrite (get_esc_ok e u utp wtp D1 D2 D3), <- Ee. cbn [bind].
  change (match wa_authority x with Some s => s | None => mkSigner payer true end) with (acting payer (wa_authority x)). rewrite A7, A8. reflexivity.
Qed.
Definition eight_wrap (r w a utp wtp s u esc : pubkey) : list info :=
  [meta_w r false; meta_w w false; meta_r a false; meta_r utp false; meta_r wtp false; meta_w s false; meta_r u false; meta_w esc false].
Lemma eight_wrap_unsigned r w a utp wtp s u esc m : In m (eight_wrap r w a utp wtp s u esc) -> i_signer m = false.
Proof. unfold eight_wrap. intros [<-|[<-|[<-|[<-|[<-|[<-|[<-|[<-|[]]]]]]]]]; reflexivity. Qed.
Lemma wrap_writes r w a utp wtp s u esc ta members n k :
  writable (tx_metas (build_wrap tw_id r w a utp wtp s u esc ta members n)) k -> k = r \/ k = w \/ k = s \/ k = esc.
Proof.
  intros (m & Hm & Hk & Hw). change (tx_metas _) with (nine (eight_wrap r w a utp wtp s u esc) ta members) in Hm. unfold nine, eight_wrap in Hm.
  destruct Hm as [<-|[<-|[<-|[<-|[<-|[<-|[<-|[<-|[<-|Hm]]]]]]]]]; cbn [meta_w meta_r i_key i_writable] in Hk, Hw; try discriminate Hw.
  - left. symmetry. exact Hk. - right. left. symmetry. exact Hk. - right. right. left. symmetry. exact Hk. - right. right. right. symmetry. exact Hk.
  - apply in_map_iff in Hm. destruct Hm as (y & <- & _). discriminate Hw.
Qed.
Lemma tok_len t : data_len (DTok t) = tok_space (t_exts t).
Proof. reflexivity. Qed.

Lemma cli_wrap_aux : forall e0 e past l fee payer x u utp wtp source recipient owner members n mu mw ts te tr w a esc,
  history e0 past l -> same_curve e0 e -> spl_or_t22 wtp -> spl_or_t22 utp ->
  w = wrapped_mint_of e u wtp -> a = authority_of e w -> esc = escrow_of e u utp wtp ->
  derivable e (wrapped_mint_seeds u wtp) tw_id -> derivable e (wrapped_mint_authority_seeds w) tw_id -> derivable e (ata_seeds a u utp) ata_id ->
  wrap_asks e payer x u utp wtp source recipient owner members n ->
  may_act l utp owner members -> helper_appends e l owner members ->
  (forall m, a_data (l owner) = DMultisig m -> a_owner (l owner) = utp) ->
  wallet l payer -> fee + e_rent e 0 <= lamports l payer ->
  holder l utp u source owner ts -> open_account l source -> 0 < lamports l source -> 0 < n -> n <= t_amount ts -> n < two64 -> source <> esc ->
  transferable l utp u mu ->
  token_account l esc utp te -> t_state te = Initialized -> (ext_fee mu <> None -> In XtTransferFeeAmount (map acct_ext_type_of (t_exts te))) ->
  mint_account l w wtp mw -> token_account l recipient wtp tr -> t_mint tr = w -> t_state tr = Initialized ->
  (ever (no_permanent_delegate u) past l \/ supply l w + n < two64) ->
  (native_mint u -> lamports l esc + lamports l source < two64 /\ e_rent e (data_len (a_data (l source))) + n <= lamports l source /\
                    e_rent e (data_len (a_data (l esc))) <= lamports l esc) ->
  exists t l' f, cli_wrap e payer x l = Ok t /\ accepted e fee t l l' /\ fee_for mu (e_epoch e) n f /\ f <= n /\
    balance l' source = balance l source - n /\ balance l' esc = balance l esc + (n - f) /\
    balance l' recipient = balance l recipient + (n - f) /\ supply l' w = supply l w + (n - f) /\
    paid l l' payer fee /\ only_changed l l' [payer; source; esc; w; recipient].
Proof.
  intros e0 e past l fee payer x u utp wtp source recipient owner members n mu mw ts te tr w a esc H C Tw Tu Ew Ea Ee D1 D2 D3 Ask Act Hx Mo Wal Fee
    Hs Op Ls Pos Le Lt Ne Hu He Ste Wit Hw Hr Mr Sr Sup Nat.
  pose proof Hs as (Hs1 & Ms & _). pose proof Hu as (Hu1 & _ & Nh).
  pose proof (cli_wrap_eval e payer x u utp wtp source recipient owner members n l ts w a esc Ask Tw Tu Hs1 Ms Ls Ew Ea Ee D1 D2 D3) as Cli.
  pose proof Ask as (_ & _ & _ & _ & _ & _ & Ao & Am & All).
  set (ix := build_wrap tw_id recipient w a utp wtp source u esc owner members n) in *.
  assert (N9 : tx_metas ix = nine (eight_wrap recipient w a utp wtp source u esc) owner members) by reflexivity.
  destruct (partial_sign_all e payer ix (eight_wrap recipient w a utp wtp source u esc) (acting payer (wa_authority x)) (wa_multisig x) (wa_presigners x)) as (sigs & Ps & Cov).
  { rewrite Ao, Am. exact N9. } { intro m. apply eight_wrap_unsigned. } { exact All. }
  rewrite Ps in Cli. set (acc := raised e payer [TxTokenWrap ix] (tx_metas ix)) in *.
  pose proof Wal as (Wo & Wd & Wt & Wa). set (l0 := charge payer fee l).
  assert (H0 : history e0 (l :: past) l0) by (apply charge_history; [exact H|exact Wo]).
  assert (Hk : map i_key acc = [recipient; w; a; utp; wtp; source; u; esc; owner] ++ members).
  { unfold acc. rewrite raised_keys, N9. unfold nine, eight_wrap. cbn [map app meta_w meta_r i_key]. rewrite map_map. cbn [meta_r i_key]. rewrite map_id. reflexivity. }
  assert (Wr : forall k, k = recipient \/ k = w \/ k = source \/ k = esc -> writable acc k).
  { intros k Hkk. apply raised_writable; [left; reflexivity|]. rewrite N9. exists (meta_w k false). split; [|split; reflexivity]. unfold nine, eight_wrap. apply in_or_app. left.
    destruct Hkk as [-> |[-> |[-> | ->]]]; [left; reflexivity|right; left; reflexivity|do 5 right; left; reflexivity|do 7 right; left; reflexivity]. }
  destruct (nine_tail e payer [TxTokenWrap ix] (eight_wrap recipient w a utp wtp source u esc) owner members eq_refl) as [T8 T9].
  rewrite <- N9 in T8, T9. fold acc in T8, T9.
  assert (Hlive : exists l2, succeeds e acc (Wrap n) l0 l2).
  { pose proof (C36_wrappable e0 e (l :: past) l0 u utp wtp acc members members n recipient source owner mu mw ts tr te H0 C Tw Tu) as G.
    cbv zeta in G. rewrite <- Ee, <- Ew, <- Ea in G. apply G; clear G.
    - exact D1. - exact D2. - exact D3. - exact Hk.
    - apply Wr. right. right. right. reflexivity. - apply Wr. left. reflexivity. - apply Wr. right. right. left. reflexivity. - apply Wr. right. left. reflexivity.
    - intros y Hy. exact Hy.
    - apply Hx; [intro k; apply charge_same|exact T8|]. exact (nine_tail_signed e payer ix (eight_wrap recipient w a utp wtp source u esc) owner members eq_refl N9).
    - intros m Dm. destruct (charge_same payer fee l owner) as [Q1 Q2]. unfold l0. rewrite Q2. apply (Mo m). rewrite <- Q1. exact Dm.
    - apply (nine_acts e payer ix (eight_wrap recipient w a utp wtp source u esc) l0 utp owner members N9); [intro m; apply eight_wrap_unsigned|]. unfold may_act, l0. rewrite !(proj1 (charge_same payer fee l owner)), !(proj2 (charge_same payer fee l owner)). exact Act.
    - apply charge_holder. exact Hs. - apply charge_open. exact Op. - exact Pos. - exact Le. - exact Ne. - apply charge_transferable. exact Hu.
    - apply charge_token. exact He. - exact Ste. - exact Wit. - apply charge_mint. exact Hw. - apply charge_token. exact Hr. - exact Mr. - exact Sr.
    - destruct Sup as [Sup|Sup]; [left; apply charge_ever; exact Sup|right]. unfold supply, l0. rewrite (proj1 (charge_same payer fee l w)). exact Sup.
    - intro Nm. destruct (Nat Nm) as [Q _]. unfold lamports, l0. rewrite (charge_other payer fee l esc) by exact (wallet_not_token l esc utp te payer Wal Tu He).
      rewrite (charge_other payer fee l source) by exact (wallet_not_token l source utp ts payer Wal Tu Hs1). exact Q. }
  destruct Hlive as [l2 H2].
  pose proof (wallet_not_token l esc utp te payer Wal Tu He) as Ne1. pose proof (wallet_not_token l source utp ts payer Wal Tu Hs1) as Ns1.
  pose proof (wallet_not_token l recipient wtp tr payer Wal Tw Hr) as Nr1. pose proof (wallet_not_mint l w wtp mw payer Wal Tw Hw) as Nw1.
  pose proof (charge_other payer fee l esc Ne1) as Ce. pose proof (charge_other payer fee l source Ns1) as Cs.
  pose proof (charge_other payer fee l recipient Nr1) as Cr. pose proof (charge_other payer fee l w Nw1) as Cw. fold l0 in Ce, Cs, Cr, Cw.
  destruct (C13_wrap e acc n l0 l2 recipient w a utp wtp source u esc owner Lt) as (mu' & mw' & ts' & te' & f & ts2 & te2 & _ & (B1 & B2 & B3 & B4 & B5 & B6 & B7 & B8) & (_ & F1 & F2 & _ & F4) & (S1 & S2 & S3 & S4 & _) & (E1 & E2 & _ & E4 & _) & W1 & (tr' & R1 & R2 & R3 & R4) & _ & Fr).
  { exists members. exact Hk. } { exact H2. } { exact Ne. }
  assert (mu' = mu). { destruct B1 as [B1 _]. destruct Hu1 as (_ & Hu1 & _). unfold l0 in B1. rewrite (proj1 (charge_same payer fee l u)) in B1. rewrite Hu1 in B1. injection B1 as ->. reflexivity. } subst mu'.
  assert (mw' = mw). { destruct B2 as (_ & B2 & _). destruct Hw as (_ & Hw & _). rewrite Cw, Hw in B2. injection B2 as ->. reflexivity. } subst mw'.
  assert (ts' = ts). { destruct B4 as (_ & B4 & _). destruct Hs1 as (_ & Hs1 & _). rewrite Cs, Hs1 in B4. injection B4 as ->. reflexivity. } subst ts'.
  assert (te' = te). { destruct B6 as (_ & B6 & _). destruct He as (_ & He & _). rewrite Ce, He in B6. injection B6 as ->. reflexivity. } subst te'.
  destruct (R4 (or_introl Nh)) as [R5 R6].
  assert (tr' = tr). { destruct R5 as (_ & R5 & _). destruct Hr as (_ & Hr & _). rewrite Cr, Hr in R5. injection R5 as ->. reflexivity. } subst tr'.
  assert (Dts : a_data (l source) = DTok ts) by (destruct Hs1 as (_ & Q & _); exact Q).
  assert (Dte : a_data (l esc) = DTok te) by (destruct He as (_ & Q & _); exact Q).
  assert (Dtr : a_data (l recipient) = DTok tr) by (destruct Hr as (_ & Q & _); exact Q).
  assert (Dmw : a_data (l w) = DMint mw) by (destruct Hw as (_ & Q & _); exact Q).
  assert (Hp : l2 payer = l0 payer).
  { apply Fr; [intro Q; apply Ns1; symmetry; exact Q|intro Q; apply Ne1; symmetry; exact Q|intro Q; apply Nw1; symmetry; exact Q|intro Q; apply Nr1; symmetry; exact Q|left; exact Nh]. }
  exists (mkTx payer [TxTokenWrap ix] sigs), l2, f. split; [exact Cli|]. split; [|split; [exact F1|split; [exact F2|]]].
  - apply send_live; [exact Cov|exact Wo|exact Wd|exact Fee| |].
    + fold l0. cbn [run_ixs run_ix]. change (process_instruction e _ _ l0) with (outcome e acc (Wrap n) l0). rewrite H2. reflexivity.
    + fold l0. apply rents_ok_intro. intros k Kw. apply one_writes in Kw. destruct Kw as [-> |Kw]; [rewrite Hp; apply rent_ok_same; reflexivity|].
      apply wrap_writes in Kw. pose proof (history_inv _ _ _ H) as Iv.
      assert (Cases : native_part ts n = 0 \/ native_mint u).
      { assert (Dc : {native_mint u} + {~ native_mint u}).
        { unfold native_mint. destruct (pk_dec u native_mint_id); [left; left; assumption|]. destruct (pk_dec u native_mint_2022_id); [left; right; assumption|right]. intros [Q|Q]; contradiction. }
        destruct Dc as [Dc|Dc]; [right; exact Dc|left]. apply (no_native_part e0 l source utp ts n Iv Tu Hs1). rewrite Ms. exact Dc. }
      assert (Szs : tok_space (t_exts ts2) = tok_space (t_exts ts)) by (destruct S3 as (_ & _ & _ & _ & _ & _ & Q); exact Q).
      assert (Sze : tok_space (t_exts te2) = tok_space (t_exts te)) by (destruct E4 as (_ & _ & _ & _ & _ & _ & Q); exact Q).
      destruct Kw as [-> |[-> |[-> | ->]]].
      * apply rent_ok_same; [|exact R6]. rewrite R3, Cr, Dtr. reflexivity.
      * apply rent_ok_same; [|rewrite W1; reflexivity]. rewrite W1, Cw, Dmw. reflexivity.
      * destruct Cases as [Z|Nm].
        -- apply rent_ok_same; [rewrite S1, Cs, Dts; cbn [a_data]; rewrite !tok_len; exact Szs|]. rewrite S1, Z, N.sub_0_r. reflexivity.
        -- apply rent_ok_enough. rewrite S1. cbn [a_data a_lamports]. rewrite tok_len, Szs. destruct (Nat Nm) as (_ & Q & _). rewrite Dts, tok_len in Q.
           unfold lamports at 1. rewrite Cs. change (a_lamports (l source)) with (lamports l source). assert (native_part ts n <= n) by (unfold native_part; destruct (t_native ts); lia). lia.
      * destruct Cases as [Z|Nm].
        -- apply rent_ok_same; [rewrite E1, Ce, Dte; cbn [a_data]; rewrite !tok_len; exact Sze|]. rewrite E1, Z, N.add_0_r. reflexivity.
        -- apply rent_ok_enough. rewrite E1. cbn [a_data a_lamports]. rewrite tok_len, Sze. destruct (Nat Nm) as (_ & _ & Q). rewrite Dte, tok_len in Q.
           unfold lamports at 1. rewrite Ce. change (a_lamports (l esc)) with (lamports l esc). lia.
  - unfold balance, supply. rewrite S1, E1, R3, W1, Dts, Dte, Dtr, Dmw. cbn [a_data t_amount m_supply]. split; [exact S2|]. split; [exact E2|]. split; [reflexivity|]. split; [reflexivity|].
    split.
    + unfold paid, lamports. rewrite Hp. unfold l0, charge. rewrite upd_same. cbn [with_lamports a_lamports a_data a_owner]. split; [unfold lamports in Fee; lia|split; reflexivity].
    + intros k Hkn. assert (K0 : k <> payer) by (intro Q; apply Hkn; left; symmetry; exact Q). rewrite <- (charge_other payer fee l k K0). fold l0.
      apply Fr; [| | | |left; exact Nh]; intro Q; apply Hkn; symmetry in Q.
      * right. left. exact Q. * right. right. left. exact Q. * do 3 right. left. exact Q. * do 4 right. left. exact Q.
Qed.

(** ** C42.  wrap: in every state a history can reach, if the holder's and the mint's accounts are in order (as C36 asks),
    the wrapped mint, the escrow and the recipient's account exist, and everybody asked signs, then the command with
    these arguments — optional ones given or left for it to find — sends a transaction that is accepted: the source
    pays [n], the escrow and the recipient get [n] less the mint's transfer fee [f], the payer pays the network fee, and
    nothing else changes.  For wrapped SOL the source must keep, and the escrow have, its rent. *)
Theorem C42_wraps : forall e0 e past l fee payer x u utp wtp source recipient owner members n mu mw ts te tr,
  history e0 past l -> same_curve e0 e -> spl_or_t22 wtp -> spl_or_t22 utp ->
  let w := wrapped_mint_of e u wtp in let a := authority_of e w in let esc := escrow_of e u utp wtp in
  derivable e (wrapped_mint_seeds u wtp) tw_id -> derivable e (wrapped_mint_authority_seeds w) tw_id -> derivable e (ata_seeds a u utp) ata_id ->
  wrap_asks e payer x u utp wtp source recipient owner members n ->
  may_act l utp owner members -> helper_appends e l owner members ->
  (forall m, a_data (l owner) = DMultisig m -> a_owner (l owner) = utp) ->
  wallet l payer -> fee + e_rent e 0 <= lamports l payer ->
  holder l utp u source owner ts -> open_account l source -> 0 < lamports l source -> 0 < n -> n <= t_amount ts -> n < two64 -> source <> esc ->
  transferable l utp u mu ->
  token_account l esc utp te -> t_state te = Initialized -> (ext_fee mu <> None -> In XtTransferFeeAmount (map acct_ext_type_of (t_exts te))) ->
  mint_account l w wtp mw -> token_account l recipient wtp tr -> t_mint tr = w -> t_state tr = Initialized ->
  (ever (no_permanent_delegate u) past l \/ supply l w + n < two64) ->
  (native_mint u -> lamports l esc + lamports l source < two64 /\ e_rent e (data_len (a_data (l source))) + n <= lamports l source /\
                    e_rent e (data_len (a_data (l esc))) <= lamports l esc) ->
  exists t l' f, cli_wrap e payer x l = Ok t /\ accepted e fee t l l' /\ fee_for mu (e_epoch e) n f /\ f <= n /\
    balance l' source = balance l source - n /\ balance l' esc = balance l esc + (n - f) /\
    balance l' recipient = balance l recipient + (n - f) /\ supply l' w = supply l w + (n - f) /\
    paid l l' payer fee /\ only_changed l l' [payer; source; esc; w; recipient].
Proof.
  intros e0 e past l fee payer x u utp wtp source recipient owner members n mu mw ts te tr H C Tw Tu w a esc D1 D2 D3 Ask Act Hx Mo Wal Fee
    Hs Op Ls Pos Le Lt Ne Hu He Ste Wit Hw Hr Mr Sr Sup Nat.
  exact (cli_wrap_aux e0 e past l fee payer x u utp wtp source recipient owner members n mu mw ts te tr w a esc H C Tw Tu eq_refl eq_refl eq_refl D1 D2 D3 Ask Act Hx Mo Wal Fee
    Hs Op Ls Pos Le Lt Ne Hu He Ste Wit Hw Hr Mr Sr Sup Nat).
Qed.
(** Alice wraps 70, naming only source, amount, program and recipient. *)
Definition alice_wraps : wrap_args := mkWrapArgs d_alice_u t22_id 70 None None (Some d_alice_w) None [] [].
Example C42_example : exists t l', cli_wrap demo_env d_alice alice_wraps (now_of story) = Ok t /\ accepted demo_env 5 t (now_of story) l' /\
  balance l' d_alice_u = 730 /\ paid (now_of story) l' d_alice 5.
Proof.
  assert (S : exists ts, a_data (now_of story d_alice_u) = DTok ts) by (eexists; vm_compute; reflexivity). destruct S as [ts Hs].
  assert (R : exists tr, a_data (now_of story d_alice_w) = DTok tr) by (eexists; vm_compute; reflexivity). destruct R as [tr Hr].
  assert (E : exists te, a_data (now_of story (d_esc spl_token_id t22_id)) = DTok te) by (eexists; vm_compute; reflexivity). destruct E as [te He].
  assert (M : exists mu, a_data (now_of story d_u) = DMint mu) by (eexists; vm_compute; reflexivity). destruct M as [mu Hm].
  assert (W : exists mw, a_data (now_of story (d_w t22_id)) = DMint mw) by (eexists; vm_compute; reflexivity). destruct W as [mw Hw].
  destruct (C42_wraps demo_env demo_env (past_of story) (now_of story) 5 d_alice alice_wraps d_u spl_token_id t22_id d_alice_u d_alice_w d_alice [] 70 mu mw ts te tr)
    as (t & l' & f & H1 & H2 & _ & _ & H3 & _ & _ & _ & H4 & _).
  - apply played_history. vm_compute. reflexivity.
  - apply same_curve_refl.
  - right; reflexivity.
  - left; reflexivity.
  - apply demo_derivable.
  - apply demo_derivable.
  - apply demo_derivable.
  - unfold wrap_asks, alice_wraps. cbn [wa_source wa_wtp wa_amount wa_mint wa_utp wa_recipient wa_authority wa_multisig wa_presigners acting sg_key map].
    split; [reflexivity|]. split; [reflexivity|]. split; [reflexivity|]. split; [left; reflexivity|]. split; [left; reflexivity|]. split; [left; reflexivity|].
    split; [reflexivity|]. split; [reflexivity|]. split; [intros s []|]. intros k _. right. intros s [<-|[]] _. reflexivity.
  - left. split; [reflexivity|]. intros m X. exfalso. vm_compute in X. discriminate X.
  - intros l1 accounts _ _ _. reflexivity.
  - intros m X. exfalso. vm_compute in X. discriminate X.
  - vm_compute. repeat split; reflexivity.
  - vm_compute. discriminate.
  - revert Hs. vm_compute. intro X. inversion X; subst ts. repeat split; auto; discriminate.
  - intros t X. change (a_data (now_of story d_alice_u) = DTok t) in X. rewrite Hs in X. inversion X; subst t. clear X. revert Hs. vm_compute. intro X. inversion X; subst ts. split; [reflexivity|intros []].
  - vm_compute. reflexivity.
  - lia.
  - revert Hs. vm_compute. intro X. inversion X; subst ts. discriminate.
  - reflexivity.
  - vm_compute. discriminate.
  - revert Hm. vm_compute. intro X. inversion X; subst mu. repeat split; auto; intros; discriminate.
  - revert He. vm_compute. intro X. inversion X; subst te. repeat split; auto; discriminate.
  - revert He. vm_compute. intro X. inversion X; subst te. reflexivity.
  - revert Hm. vm_compute. intro Y. inversion Y; subst mu. intro Z. exfalso. apply Z. reflexivity.
  - revert Hw. vm_compute. intro X. inversion X; subst mw. repeat split; auto; discriminate.
  - revert Hr. vm_compute. intro X. inversion X; subst tr. repeat split; auto; discriminate.
  - revert Hr. vm_compute. intro X. inversion X; subst tr. reflexivity.
  - revert Hr. vm_compute. intro X. inversion X; subst tr. reflexivity.
  - left. exact story_no_pd.
  - intros [X|X]; exfalso; vm_compute in X; discriminate X.
  - exists t, l'. split; [exact H1|]. split; [exact H2|]. split; [|exact H4]. rewrite H3. vm_compute. reflexivity.
Qed.
