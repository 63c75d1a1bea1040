(** * PropJsUnwrap.v — C52 (what an accepted transaction shows) and C53: singleSignerUnwrap. *)
From Verif Require Import Base Codec State Pda TokenProg Cpi Ata Meta Processor Builders Cli Js Tac PdaProofs TokProofs ProcProofs Spec HistorySpec CliSpec JsSpec CloseProofs SpecLemmas
  WrapProofs CreateProofs CreateSpec InvState InvHist PropWrap PropEscrow CliProofs CliSign CliCreate CodecProofs PropBuilders PropCreate PropCli PropCliEscrow PropCliWrap PropCliUnwrap PropJs PropJsTx
  Demo Demo2 DemoHist.

(** ** What an accepted transaction shows. *)
Lemma js_sign_inv payer ixs t : js_sign payer ixs = Ok t ->
  tr_payer t = sg_key payer /\ tr_ixs t = map jx_ix ixs /\
  forall k, In k (tr_signed t) -> exists s, In s (payer :: flat_map jx_signers ixs) /\ sg_key s = k /\ sg_signs s = true.
Proof.
  unfold js_sign. cbv zeta. generalize (payer :: flat_map jx_signers ixs) as ss. intros ss H. apply bind_ok in H. destruct H as ([] & _ & H). injection H as <-. cbn [tr_payer tr_ixs tr_signed].
  split; [reflexivity|]. split; [reflexivity|]. intros k Hk. apply in_map_iff in Hk. destruct Hk as (s & K & Hk). apply filter_In in Hk. destruct Hk as [Hk S].
  exists s. split; [exact (one_each_in _ _ Hk)|]. split; [exact K|exact S].
Qed.
Lemma accepted_one e fee t l l' i : tr_ixs t = [TxTokenWrap i] -> tx_prog i = tw_id -> accepted e fee t l l' ->
  process_instruction e (mkCtx tw_id (raised e (tr_payer t) [TxTokenWrap i] (tx_metas i))) (tx_data i) (charge (tr_payer t) fee l) = Ok l' /\
  (forall k, must_sign e (tr_payer t) [TxTokenWrap i] k = true -> In k (tr_signed t)).
Proof.
  intros Ei Ep A. apply send_cases in A. destruct A as [(_ & err & X)|(_ & _ & _ & S & [(_ & err & X)|(_ & R)])]; [discriminate X|discriminate X|].
  rewrite Ei in R, S. split; [|exact S]. cbn [run_ixs run_ix] in R. apply bind_ok in R. destruct R as (l1 & E & R). injection R as <-. rewrite Ep in E. exact E.
Qed.
Lemma N2Nat_le a b : (a <= b)%nat -> N.of_nat a <= N.of_nat b.
Proof. lia. Qed.
Lemma raised_signed_for e fee t l i p who :
  (forall k, must_sign e (tr_payer t) [TxTokenWrap i] k = true -> In k (tr_signed t)) ->
  signed_by (raised e (tr_payer t) [TxTokenWrap i] (tx_metas i)) (charge (tr_payer t) fee l) p who -> signed_for t l p who.
Proof.
  intros S [H|(m & O & D & C)].
  - left. apply S. exact (proj1 (raised_signed_inv _ _ _ _ _ H)).
  - right. exists m. rewrite (proj2 (charge_same (tr_payer t) fee l who)) in O. rewrite (proj1 (charge_same (tr_payer t) fee l who)) in D.
    split; [exact O|]. split; [exact D|]. refine (N.le_trans _ _ _ C _). apply N2Nat_le. apply filter_length_le. intros k _ K. apply is_sig_In in K. apply pk_mem_In. apply S.
    destruct K as (q & Q1 & Q2 & Q3). exact (proj1 (raised_signed_inv _ _ _ _ k (ex_intro _ q (conj Q1 (conj Q2 Q3))))).
Qed.
Lemma charge_token_inv payer fee l k p t : token_account (charge payer fee l) k p t -> token_account l k p t.
Proof. intros (O & D & S). destruct (charge_same payer fee l k) as [E1 E2]. split; [rewrite <- E2; exact O|split; [rewrite <- E1; exact D|exact S]]. Qed.
Lemma charge_mint_data_inv payer fee l k m : mint_data (charge payer fee l) k m -> mint_data l k m.
Proof. intros (D & S). destruct (charge_same payer fee l k) as [E1 E2]. split; [rewrite <- E1; exact D|exact S]. Qed.
(** If the network accepts what singleSignerWrap returned, the holder of the source consented: the owner, its delegate or
    the mint's permanent delegate signed, and the only signatures are the payer's and the named signer's, if they sign. *)
Theorem C52_consent : forall e dec payer x l t fee l',
  js_transaction payer (js_single_wrap e dec payer x l) = Ok t -> accepted e fee t l l' ->
  exists n p u ts mu who, jw_amount x = Z.of_N n /\ (jw_mint x = Some u \/ dec (a_data (l (jw_source x))) = Ok u) /\ token_account l (jw_source x) p ts /\ mint_data l u mu /\
    (who = t_owner ts \/ (t_delegate ts = Some who /\ n <= t_delegated ts) \/ ext_permanent_delegate mu = Some who) /\ signed_for t l p who /\
    forall k, In k (tr_signed t) -> exists s, (s = payer \/ jw_authority x = Some (JsSigner s)) /\ sg_key s = k /\ sg_signs s = true.
Proof.
  intros e dec payer x l t fee l' H A. unfold js_transaction in H. apply bind_ok in H. destruct H as (ixs & E & H).
  destruct (C52_means e dec payer x l ixs E) as (n & u & utp & r & i & X). cbv zeta in X. destruct X as (En & Ln & Um & _ & _ & -> & Pr & Un & Ks & _).
  apply js_sign_inv in H. destruct H as (Hp & Hi & Hs). cbn [map jx_ix flat_map jx_signers app] in Hi, Hs. destruct (accepted_one e fee t l l' i Hi Pr A) as [R S].
  assert (Sc : succeeds e (raised e (tr_payer t) [TxTokenWrap i] (tx_metas i)) (Wrap n) (charge (tr_payer t) fee l) l').
  { unfold succeeds, outcome. rewrite <- R. unfold process_instruction. rewrite Un, (unpack_pack (Wrap n)) by exact Ln. reflexivity. }
  destruct (C14_wrap_consent e _ n _ l' r _ _ utp _ (jw_source x) u _ _ Ln (ex_intro _ [] (eq_trans (raised_keys _ _ _ _) (eq_trans Ks (eq_sym (app_nil_r _))))) Sc)
    as (ts & mu & who & T & M & Sg & W).
  exists n, utp, u, ts, mu, who. split; [exact En|]. split; [destruct Um as [Um|(_ & Um)]; [left; exact Um|right; exact Um]|]. split; [exact (charge_token_inv _ _ _ _ _ _ T)|]. split; [exact (charge_mint_data_inv _ _ _ _ _ M)|].
  split; [exact W|]. split; [exact (raised_signed_for e fee t l i utp who S Sg)|].
  intros k Hk. destruct (Hs k Hk) as (s & Is & K & Y). exists s. split; [|split; [exact K|exact Y]]. destruct Is as [<-|Is]; [left; reflexivity|].
  rewrite app_nil_r in Is. destruct (jw_authority x) as [[s'|q]|]; cbn [js_or js_signers] in Is; [destruct Is as [<-|[]]; right; reflexivity|destruct Is|destruct Is as [<-|[]]; left; reflexivity].
Qed.
Print Assumptions C52_consent.
(** In particular: if the owner of a source without delegate signs neither as payer nor as named signer, nothing happens. *)
Theorem C52_refused : forall e dec payer x l t fee l' p ts,
  js_transaction payer (js_single_wrap e dec payer x l) = Ok t -> token_account l (jw_source x) p ts -> t_delegate ts = None ->
  (forall u mu, jw_mint x = Some u \/ dec (a_data (l (jw_source x))) = Ok u -> mint_data l u mu -> ext_permanent_delegate mu = None) -> (forall m, a_data (l (t_owner ts)) <> DMultisig m) ->
  (forall s, (s = payer \/ jw_authority x = Some (JsSigner s)) -> sg_key s = t_owner ts -> sg_signs s = false) -> ~ accepted e fee t l l'.
Proof.
  intros e dec payer x l t fee l' p ts H T D P M Sg A. destruct (C52_consent e dec payer x l t fee l' H A) as (n & p' & u & ts' & mu & who & _ & Um & T' & Mu & W & S & Ks).
  assert (ts' = ts). { destruct T as (_ & T & _), T' as (_ & T' & _). rewrite T in T'. injection T' as ->. reflexivity. } subst ts'.
  destruct W as [-> |[(W & _)|W]]; [|rewrite D in W; discriminate W|rewrite (P u mu Um Mu) in W; discriminate W].
  destruct S as [S|(m & _ & S & _)]; [|exact (M m S)]. destruct (Ks _ S) as (s & I & K & Y). rewrite (Sg s I K) in Y. discriminate Y.
Qed.
Print Assumptions C52_refused.

(** ** C53: singleSignerUnwrap *)
Definition cli_unwrap_args (x : js_unwrap_args) (n : N) : unwrap_args :=
  mkUnwrapArgs (ju_source x) (ju_recipient x) n (cli_authority (ju_authority x)) (ju_mint x) (ju_wtp x) (ju_utp x) [] [].
Lemma js_unwrap_eval e dec payer x u utp wtp source recipient owner n l ts tr w a esc :
  reads_mints dec -> sg_signs payer = true -> js_unwrap_asks (sg_key payer) x u utp wtp source recipient owner n -> n < two64 ->
  token_account l source wtp ts -> t_mint ts = w -> 0 < lamports l source -> token_account l recipient utp tr -> t_mint tr = u -> 0 < lamports l recipient ->
  w = wrapped_mint_of e u wtp -> a = authority_of e w -> esc = escrow_of e u utp wtp ->
  derivable e (wrapped_mint_authority_seeds w) tw_id -> derivable e (ata_seeds a u utp) ata_id ->
  js_single_unwrap e dec payer x l =
    Ok [mkJsIx (TxTokenWrap (build_unwrap tw_id esc recipient a u wtp utp source w owner [] n)) [js_signer_of payer (ju_authority x)]].
Proof.
  intros Rd Y (A1 & A2 & A3 & A4 & A5 & A6 & A7) Lt Hs Ms Ls Hr Mr Lr Ew Ea Ee D2 D3. destruct (js_acting_signs payer owner _ Y A7) as (K1 & _ & K3 & _).
  unfold js_single_unwrap. rewrite A1, A2, A3.
  assert (E1 : match ju_wtp x with Some k => Ok k | None => js_owner l source end = Ok wtp).
  { destruct A6 as [-> | ->]; [|reflexivity]. unfold js_owner. rewrite (owner_ok l source Ls). destruct Hs as (-> & _). reflexivity. }
  rewrite E1. cbn [bind].
  assert (E2 : match ju_utp x with Some k => Ok k | None => js_owner l recipient end = Ok utp).
  { destruct A5 as [-> | ->]; [|reflexivity]. unfold js_owner. rewrite (owner_ok l recipient Lr). destruct Hr as (-> & _). reflexivity. }
  rewrite E2. cbn [bind].
  assert (E3 : match ju_mint x with Some k => Ok k | None => js_mint_of dec l recipient end = Ok u).
  { destruct A4 as [-> | ->]; [|reflexivity]. rewrite (js_mint_of_ok dec l recipient utp tr Rd Hr Lr), Mr. reflexivity. }
  rewrite E3. cbn [bind]. rewrite (js_mint_of_ok dec l source wtp ts Rd Hs Ls), Ms. cbn [bind]. rewrite js_a_eq, (get_a_ok e w D2), <- Ea. cbn [bind]. cbv zeta. rewrite K3.
  unfold js_build_unwrap. rewrite js_ata_eq, (get_ata_live e a u utp D3). cbn [bind].
  assert (Ex : ata_of e a u utp = esc) by (rewrite Ea, Ew, Ee; reflexivity). rewrite Ex.
  assert (Bw : js_unwrap tw_id esc recipient a u wtp utp source w (JsSigner (js_signer_of payer (ju_authority x))) (Z.of_N n) [] =
               Ok (build_unwrap tw_id esc recipient a u wtp utp source w (sg_key (js_signer_of payer (ju_authority x))) [] n)).
  { unfold js_unwrap. rewrite (js_u64_ok n Lt). reflexivity. }
  rewrite Bw, K1. reflexivity.
Qed.
Lemma js_unwrap_cli e dec payer x u utp wtp source recipient owner n l ts tr mu w a esc :
  reads_mints dec -> sg_signs payer = true -> js_unwrap_asks (sg_key payer) x u utp wtp source recipient owner n -> n < two64 -> spl_or_t22 wtp -> spl_or_t22 utp ->
  token_account l source wtp ts -> t_mint ts = w -> 0 < lamports l source -> token_account l recipient utp tr -> t_mint tr = u -> 0 < lamports l recipient ->
  mint_account l u utp mu -> 0 < lamports l u ->
  w = wrapped_mint_of e u wtp -> a = authority_of e w -> esc = escrow_of e u utp wtp ->
  derivable e (wrapped_mint_seeds u wtp) tw_id -> derivable e (wrapped_mint_authority_seeds w) tw_id -> derivable e (ata_seeds a u utp) ata_id ->
  unwrap_asks (sg_key payer) (cli_unwrap_args x n) u utp wtp source recipient owner [] n /\
  js_transaction payer (js_single_unwrap e dec payer x l) = cli_unwrap e (sg_key payer) (cli_unwrap_args x n) l.
Proof.
  intros Rd Y Ask Lt Tw Tu Hs Ms Ls Hr Mr Lr Hu Lu Ew Ea Ee D1 D2 D3. pose proof Ask as (A1 & A2 & A3 & A4 & A5 & A6 & A7).
  destruct (js_acting_signs payer owner _ Y A7) as (K1 & K2 & K3 & K4 & K5).
  assert (W : unwrap_asks (sg_key payer) (cli_unwrap_args x n) u utp wtp source recipient owner [] n).
  { unfold unwrap_asks, cli_unwrap_args. cbn [ua_source ua_wtp ua_amount ua_mint ua_utp ua_recipient ua_authority ua_multisig ua_presigners map].
    split; [exact A1|]. split; [exact A2|]. split; [reflexivity|]. split; [exact A4|]. split; [exact A5|]. split; [exact A6|]. split; [exact K4|]. split; [reflexivity|].
    split; [intros s []|]. intros k _. right. intros s [<-|[]] _. exact K5. }
  split; [exact W|].
  rewrite (js_unwrap_eval e dec payer x u utp wtp source recipient owner n l ts tr w a esc Rd Y Ask Lt Hs Ms Ls Hr Mr Lr Ew Ea Ee D2 D3).
  rewrite (cli_unwrap_eval e (sg_key payer) (cli_unwrap_args x n) u utp wtp source recipient owner [] n l ts tr mu w a esc W Tw Tu Hs Ls Hr Mr Lr Hu Lu Ew Ea Ee D1 D2 D3).
  unfold js_transaction. cbn [bind]. rewrite (js_sign_two payer _ _ Y K2). cbn [cli_unwrap_args ua_authority ua_multisig ua_presigners].
  rewrite (cli_sign_two e (sg_key payer) (acting (sg_key payer) (cli_authority (ju_authority x)))); [rewrite K1, K4; reflexivity|exact K5|].
  rewrite K4. exists (meta_r owner true). split; [|split; reflexivity]. do 8 right. left. reflexivity.
Qed.
(** Under the conditions of C43 the helper redeems what was asked. *)
Theorem C53_unwraps : forall e0 e past l dec fee payer x u utp wtp source recipient owner n mu ts tr,
  reads_mints dec -> sg_signs payer = true ->
  history e0 past l -> ever (no_permanent_delegate u) past l -> same_curve e0 e -> spl_or_t22 wtp -> spl_or_t22 utp ->
  let w := wrapped_mint_of e u wtp in let a := authority_of e w in let esc := escrow_of e u utp wtp in
  derivable e (wrapped_mint_seeds u wtp) tw_id -> derivable e (wrapped_mint_authority_seeds w) tw_id -> derivable e (ata_seeds a u utp) ata_id ->
  js_unwrap_asks (sg_key payer) x u utp wtp source recipient owner n ->
  (forall m, a_data (l owner) <> DMultisig m) -> helper_finds e l owner [] -> helper_usual e ->
  wallet l (sg_key payer) -> fee + e_rent e 0 <= lamports l (sg_key payer) ->
  holder l wtp w source owner ts -> 0 < lamports l source -> 0 < n -> n <= t_amount ts -> n < two64 ->
  transferable l utp u mu -> 0 < lamports l u -> can_receive e l utp u recipient mu tr -> 0 < lamports l recipient -> recipient <> esc -> open_account l esc ->
  (native_mint u -> lamports l recipient + lamports l esc < two64 /\ e_rent e (data_len (a_data (l esc))) + n <= lamports l esc /\
                    e_rent e (data_len (a_data (l recipient))) <= lamports l recipient) ->
  exists t l' f, js_transaction payer (js_single_unwrap e dec payer x l) = Ok t /\ accepted e fee t l l' /\ fee_for mu (e_epoch e) n f /\ f <= n /\
    balance l' source = balance l source - n /\ supply l' w = supply l w - n /\ balance l' esc = balance l esc - n /\
    balance l' recipient = balance l recipient + (n - f) /\
    paid l l' (sg_key payer) fee /\ only_changed l l' [sg_key payer; source; esc; w; recipient].
Proof.
  intros e0 e past l dec fee payer x u utp wtp source recipient owner n mu ts tr Rd Y H Ev C Tw Tu w a esc D1 D2 D3 Ask Nm Hf Hy Wal Fee
    Hs Ls Pos Le Lt Hu Lu Hr Lr Ne Op Nat.
  pose proof Hs as (Ha & Hm & _). pose proof Hu as (Hu1 & _). pose proof Hr as (Hr1 & Hr2 & _).
  destruct (js_unwrap_cli e dec payer x u utp wtp source recipient owner n l ts tr mu w a esc Rd Y Ask Lt Tw Tu Ha Hm Ls Hr1 Hr2 Lr Hu1 Lu eq_refl eq_refl eq_refl D1 D2 D3) as [W E].
  rewrite E.
  refine (C43_unwraps e0 e past l fee (sg_key payer) (cli_unwrap_args x n) u utp wtp source recipient owner [] n mu ts tr H Ev C Tw Tu D1 D2 D3 W _ Hf Hy Wal Fee
    Hs Ls Pos Le Lt Hu Lu Hr Lr Ne Op Nat).
  left. split; [reflexivity|]. intros m X. exfalso. exact (Nm m X).
Qed.
Print Assumptions C53_unwraps.
(** Whatever the state: what is returned is one Unwrap of exactly the amount, from the source to the recipient asked for. *)
Theorem C53_means : forall e dec payer x l ixs, js_single_unwrap e dec payer x l = Ok ixs ->
  exists n u utp wtp w i,
    let a := authority_of e w in let ta := js_or (ju_authority x) (JsSigner payer) in
    ju_amount x = Z.of_N n /\ n < two64 /\
    (ju_mint x = Some u \/ ju_mint x = None /\ dec (a_data (l (ju_recipient x))) = Ok u) /\
    (ju_utp x = Some utp \/ ju_utp x = None /\ a_owner (l (ju_recipient x)) = utp) /\
    (ju_wtp x = Some wtp \/ ju_wtp x = None /\ a_owner (l (ju_source x)) = wtp) /\
    dec (a_data (l (ju_source x))) = Ok w /\
    ixs = [mkJsIx (TxTokenWrap i) (js_signers ta)] /\ tx_prog i = tw_id /\ unpack (tx_data i) = Ok (Unwrap n) /\
    map i_key (tx_metas i) = [ata_of e a u utp; ju_recipient x; a; u; wtp; utp; ju_source x; w; js_address ta] /\
    (forall k, signed (tx_metas i) k <-> exists s, ta = JsSigner s /\ sg_key s = k).
Proof.
  intros e dec payer x l ixs H. unfold js_single_unwrap in H. apply bind_ok in H. destruct H as (wtp & Eq & H). apply bind_ok in H. destruct H as (utp & Ep & H).
  apply bind_ok in H. destruct H as (u & Eu & H). apply bind_ok in H. destruct H as (w & Ew & H). apply bind_ok in H. destruct H as (a & Ea & H). cbv zeta in H.
  apply bind_ok in H. destruct H as (i & Ei & H). injection H as <-. unfold js_build_unwrap in Ei. apply bind_ok in Ei. destruct Ei as (esc & Ee & Ei).
  apply bind_ok in Ei. destruct Ei as (ix & Ex & Ei). injection Ei as <-. unfold js_unwrap in Ex. apply bind_ok in Ex. destruct Ex as (d & Ed & Ex). injection Ex as <-.
  apply js_u64_inv in Ed. destruct Ed as (n & En & Ln & ->). apply js_a_found in Ea. apply js_ata_found in Ee.
  exists n, u, utp, wtp, w. eexists. cbv zeta.
  split; [exact En|]. split; [exact Ln|].
  split. { destruct (ju_mint x) as [k|]; [left; injection Eu as ->; reflexivity|right; split; [reflexivity|exact (js_mint_of_inv dec l _ u Eu)]]. }
  split. { destruct (ju_utp x) as [k|]; [left; injection Ep as ->; reflexivity|right; split; [reflexivity|]]. apply owner_inv in Ep. symmetry. exact Ep. }
  split. { destruct (ju_wtp x) as [k|]; [left; injection Eq as ->; reflexivity|right; split; [reflexivity|]]. apply owner_inv in Eq. symmetry. exact Eq. }
  split; [exact (js_mint_of_inv dec l _ w Ew)|].
  split; [rewrite app_nil_r; reflexivity|]. split; [reflexivity|].
  split. { change (tx_data _) with (pack (Unwrap n)). apply unpack_pack. exact Ln. }
  split. { rewrite <- Ea, <- Ee. destruct (js_or (ju_authority x) (JsSigner payer)); reflexivity. }
  intro k. cbn [tx_metas map app]. split.
  - intros (m & Hm & K & S). repeat (destruct Hm as [<-|Hm]; [try discriminate S|]); [|destruct Hm].
    destruct (js_or (ju_authority x) (JsSigner payer)) as [s|q]; [exists s; split; [reflexivity|exact K]|discriminate S].
  - intros (s & E & K). rewrite E. exists (mkInfo (sg_key s) true false). split; [do 8 right; left; reflexivity|]. split; [exact K|reflexivity].
Qed.
Print Assumptions C53_means.
(** Nothing is cross-checked before sending, and nothing can go wrong by it: if the network accepts the transaction (and the
    recipient is not itself an escrow), the source's mint is the wrapped mint of the recipient's mint under the source's
    program, every argument given agrees with the ledger, and the recipient gets the amount less the fee out of the
    genuine escrow. *)
Theorem C53_agrees : forall e dec payer x l t fee l',
  reads_mints dec -> js_transaction payer (js_single_unwrap e dec payer x l) = Ok t -> accepted e fee t l l' ->
  (forall u utp wtp, ju_recipient x <> escrow_of e u utp wtp) ->
  exists n ts tr mu f,
    let wtp := a_owner (l (ju_source x)) in let utp := a_owner (l (ju_recipient x)) in let u := t_mint tr in let w := wrapped_mint_of e u wtp in
    let esc := escrow_of e u utp wtp in
    ju_amount x = Z.of_N n /\
    token_account l (ju_source x) wtp ts /\ token_account l (ju_recipient x) utp tr /\ t_mint ts = w /\
    given (ju_wtp x) wtp /\ given (ju_utp x) utp /\ given (ju_mint x) u /\
    mint_data l u mu /\ fee_for mu (e_epoch e) n f /\ f <= n /\
    balance l esc = balance l' esc + n /\ balance l' (ju_recipient x) = balance l (ju_recipient x) + (n - f) /\ supply l w = supply l' w + n.
Proof.
  intros e dec payer x l t fee l' Rd H A Ne. unfold js_transaction in H. apply bind_ok in H. destruct H as (ixs & E & H).
  destruct (C53_means e dec payer x l ixs E) as (n & u & utp & wtp & w & i & X). cbv zeta in X. destruct X as (En & Ln & Mu & Up & Wp & Dw & -> & Pr & Un & Ks & _).
  apply js_sign_inv in H. destruct H as (Hp & Hi & Hs). cbn [map jx_ix flat_map jx_signers app] in Hi, Hs. destruct (accepted_one e fee t l l' i Hi Pr A) as [R S].
  remember (charge (tr_payer t) fee l) as l0 eqn:E0.
  assert (Sc : succeeds e (raised e (tr_payer t) [TxTokenWrap i] (tx_metas i)) (Unwrap n) l0 l').
  { unfold succeeds, outcome. rewrite <- R. unfold process_instruction. rewrite Un, (unpack_pack (Unwrap n)) by exact Ln. reflexivity. }
  assert (Kk : keys_are (raised e (tr_payer t) [TxTokenWrap i] (tx_metas i))
    [ata_of e (authority_of e w) u utp; ju_recipient x; authority_of e w; u; wtp; utp; ju_source x; w; js_address (js_or (ju_authority x) (JsSigner payer))])
    by (exists []; rewrite app_nil_r; exact (eq_trans (raised_keys _ _ _ _) Ks)).
  destruct (unwrap_inv _ _ _ _ _ _ _ _ _ _ _ _ _ _ Ln Kk Sc) as (_ & _ & _ & Ew & _ & Ee & _). rewrite Ee in Kk.
  destruct (C15_unwrap e _ n l0 l' _ _ _ u wtp utp _ w _ Ln Kk Sc (Ne u utp wtp))
    as (mu & mw & ts & te & tr & f & ts' & te' & tr' & _ & (B1 & B2 & B3 & B4 & B5 & B6 & B7 & B8) & (_ & F1 & F2 & _ & F3 & F4 & _) & W1 & (E1 & E2 & _) & (R1 & R2 & _) & _).
  subst l0. apply charge_mint_data_inv in B1. apply charge_mint_inv in B2. apply charge_token_inv in B3, B5, B7.
  exists n, ts, tr, mu, f. cbv zeta. pose proof B3 as (O3 & D3 & _). pose proof B7 as (O7 & D7 & _). rewrite O3, O7, B8. pose proof B5 as (_ & D5 & _). pose proof B2 as (_ & D2 & _).
  split; [exact En|]. split; [exact B3|]. split; [exact B7|]. split; [rewrite B4; exact Ew|].
  split. { destruct Wp as [Q|(Q & _)]; [right; exact Q|left; exact Q]. }
  split. { destruct Up as [Q|(Q & _)]; [right; exact Q|left; exact Q]. }
  split. { destruct Mu as [Q|(Q & _)]; [right; exact Q|left; exact Q]. }
  split; [exact B1|]. split; [exact F1|]. split; [exact F2|].
  split. { unfold balance. rewrite E1, D5. cbn [a_data]. rewrite E2. clear - F4. lia. }
  split. { unfold balance. rewrite R1, D7. cbn [a_data]. exact R2. }
  rewrite <- Ew. unfold supply. rewrite W1, D2. cbn [a_data m_supply]. clear - F3. lia.
Qed.
Print Assumptions C53_agrees.

(** ** Examples *)
Definition demo_dec : decoder := fun d => match d with DTok t => Ok (t_mint t) | _ => Err EInvalidArgument end.
Definition js_alice : signer := mkSigner d_alice true.
Lemma demo_reads : reads_mints demo_dec.
Proof. intro t. reflexivity. Qed.
Example C50_example : exists t l' exts,
  js_transaction js_alice (js_create_mint_helper demo_env js_alice d_u t22_id false (now_of cli_setup)) = Ok t /\ accepted demo_env 5 t (now_of cli_setup) l' /\
  promised_extensions t22_id (d_w t22_id) (d_a t22_id) exts /\
  l' (d_w t22_id) = mkAcc 3030 (DMint (mkMint (Some (d_a t22_id)) 0 6 true (Some d_freeze) exts 303)) t22_id /\
  l' (d_b t22_id) = mkAcc 320 (DKey d_u) tw_id /\ paid (now_of cli_setup) l' d_alice 3355.
Proof.
  destruct C40_example as (t & l' & exts & H1 & H2 & H3 & H4 & H5 & H6 & _). exists t, l', exts.
  split; [|split; [exact H2|split; [exact H3|split; [exact H4|split; [exact H5|exact H6]]]]].
  rewrite (C50_same demo_env js_alice d_u t22_id false (now_of cli_setup)); [exact H1|right; reflexivity|reflexivity].
Qed.
Example C51_example : exists t l' te,
  js_opt_transaction js_alice (js_create_escrow demo_env demo_dec js_alice d_u t22_id (now_of cli_setup)) = Ok (Some t) /\ accepted demo_env 5 t (now_of cli_setup) l' /\
  l' (d_esc spl_token_id t22_id) = mkAcc 1650 (DTok te) spl_token_id /\ t_mint te = d_u /\ t_owner te = d_a t22_id /\ paid (now_of cli_setup) l' d_alice 1655.
Proof.
  destruct (cli_unallocated (d_esc spl_token_id t22_id)) as [U1 L1]; [right; right; reflexivity|].
  destruct C41_example as (t & l' & te & H1 & H2 & H3 & H4 & H5 & H6). exists t, l', te. split; [|split; [exact H2|split; [exact H3|split; [exact H4|split; [exact H5|exact H6]]]]].
  rewrite (C51_same demo_env demo_dec js_alice d_u spl_token_id t22_id false (now_of cli_setup) cli_mint); [exact H1|reflexivity|right; reflexivity|left; reflexivity|exact cli_d_u|vm_compute; reflexivity|
    apply demo_derivable|apply demo_derivable|apply demo_derivable|exact L1].
Qed.
Example C51_squatted_example : exists l1 err, sys_transfer d_alice (d_esc spl_token_id t22_id) 1 (now_of cli_setup) = Ok l1 /\ reachable demo_env l1 /\
  unallocated l1 (d_esc spl_token_id t22_id) /\ js_create_escrow demo_env demo_dec (mkSigner d_bob true) d_u t22_id l1 = Err err.
Proof.
  destruct (cli_unallocated (d_esc spl_token_id t22_id)) as [U1 L1]; [right; right; reflexivity|].
  apply (C51_squatted_refuted demo_env demo_env demo_dec (mkSigner d_bob true) d_u spl_token_id t22_id (now_of cli_setup) cli_mint d_alice).
  { intros bs. exists EInvalidArgument. reflexivity. }
  { exact cli_setup_reachable. } { right. reflexivity. } { left. reflexivity. } { exact cli_d_u. } { vm_compute. reflexivity. }
  { apply demo_derivable. } { apply demo_derivable. } { apply demo_derivable. } { exact U1. }
  { change (lamports (now_of cli_setup) (d_esc spl_token_id t22_id) + 1 < two64). rewrite L1. reflexivity. } { exact cli_alice. } { vm_compute. discriminate. }
Qed.
(** Alice wraps 70, naming source, program, recipient and amount. *)
Definition js_alice_wraps : js_wrap_args := mkJsWrap d_alice_u t22_id 70 None None (Some d_alice_w) None.
Example C52_example : exists t l', js_transaction js_alice (js_single_wrap demo_env demo_dec js_alice js_alice_wraps (now_of story)) = Ok t /\ accepted demo_env 5 t (now_of story) l' /\
  balance l' d_alice_u = 730 /\ paid (now_of story) l' d_alice 5.
Proof.
  assert (S : exists ts, a_data (now_of story d_alice_u) = DTok ts) by (eexists; vm_compute; reflexivity). destruct S as [ts Hs].
  assert (R : exists tr, a_data (now_of story d_alice_w) = DTok tr) by (eexists; vm_compute; reflexivity). destruct R as [tr Hr].
  assert (E : exists te, a_data (now_of story (d_esc spl_token_id t22_id)) = DTok te) by (eexists; vm_compute; reflexivity). destruct E as [te He].
  assert (M : exists mu, a_data (now_of story d_u) = DMint mu) by (eexists; vm_compute; reflexivity). destruct M as [mu Hm].
  assert (W : exists mw, a_data (now_of story (d_w t22_id)) = DMint mw) by (eexists; vm_compute; reflexivity). destruct W as [mw Hw].
  destruct (C52_wraps demo_env demo_env (past_of story) (now_of story) demo_dec 5 js_alice js_alice_wraps d_u spl_token_id t22_id d_alice_u d_alice_w d_alice 70 mu mw ts te tr)
    as (t & l' & f & H1 & H2 & _ & _ & H3 & _ & _ & _ & H4 & _).
  - exact demo_reads.
  - reflexivity.
  - apply played_history. vm_compute. reflexivity.
  - apply same_curve_refl.
  - right; reflexivity.
  - left; reflexivity.
  - apply demo_derivable.
  - apply demo_derivable.
  - apply demo_derivable.
  - split; [reflexivity|]. split; [reflexivity|]. split; [reflexivity|]. split; [left; reflexivity|]. split; [left; reflexivity|]. split; [left; reflexivity|]. left. split; reflexivity.
  - intros m X. vm_compute in X. discriminate X.
  - intros l1 accounts _ _ _. reflexivity.
  - vm_compute. repeat split; reflexivity.
  - vm_compute. discriminate.
  - revert Hs. vm_compute. intro X. inversion X; subst ts. repeat split; auto; discriminate.
  - intros t X. change (a_data (now_of story d_alice_u) = DTok t) in X. rewrite Hs in X. inversion X; subst t. clear X. revert Hs. vm_compute. intro X. inversion X; subst ts. split; [reflexivity|intros []].
  - vm_compute. reflexivity.
  - lia.
  - revert Hs. vm_compute. intro X. inversion X; subst ts. discriminate.
  - reflexivity.
  - vm_compute. discriminate.
  - revert Hm. vm_compute. intro X. inversion X; subst mu. repeat split; auto; intros; discriminate.
  - revert He. vm_compute. intro X. inversion X; subst te. repeat split; auto; discriminate.
  - revert He. vm_compute. intro X. inversion X; subst te. reflexivity.
  - revert Hm. vm_compute. intro Y. inversion Y; subst mu. intro Z. exfalso. apply Z. reflexivity.
  - revert Hw. vm_compute. intro X. inversion X; subst mw. repeat split; auto; discriminate.
  - revert Hr. vm_compute. intro X. inversion X; subst tr. repeat split; auto; discriminate.
  - revert Hr. vm_compute. intro X. inversion X; subst tr. reflexivity.
  - revert Hr. vm_compute. intro X. inversion X; subst tr. reflexivity.
  - left. exact story_no_pd.
  - intros [X|X]; exfalso; vm_compute in X; discriminate X.
  - exists t, l'. split; [exact H1|]. split; [exact H2|]. split; [|exact H4]. rewrite H3. vm_compute. reflexivity.
Qed.
(** Alice unwraps 40, naming only source, recipient and amount. *)
Definition js_alice_unwraps : js_unwrap_args := mkJsUnwrap d_alice_w d_alice_u 40 None None None None.
Example C53_example : exists t l', js_transaction js_alice (js_single_unwrap demo_env demo_dec js_alice js_alice_unwraps (now_of story)) = Ok t /\ accepted demo_env 5 t (now_of story) l' /\
  balance l' d_alice_u = 840 /\ balance l' d_alice_w = 110 /\ paid (now_of story) l' d_alice 5.
Proof.
  assert (S : exists ts, a_data (now_of story d_alice_w) = DTok ts) by (eexists; vm_compute; reflexivity). destruct S as [ts Hs].
  assert (R : exists tr, a_data (now_of story d_alice_u) = DTok tr) by (eexists; vm_compute; reflexivity). destruct R as [tr Hr].
  assert (E : exists te, a_data (now_of story (d_esc spl_token_id t22_id)) = DTok te) by (eexists; vm_compute; reflexivity). destruct E as [te He].
  assert (M : exists mu, a_data (now_of story d_u) = DMint mu) by (eexists; vm_compute; reflexivity). destruct M as [mu Hm].
  destruct (C53_unwraps demo_env demo_env (past_of story) (now_of story) demo_dec 5 js_alice js_alice_unwraps d_u spl_token_id t22_id d_alice_w d_alice_u d_alice 40 mu ts tr)
    as (t & l' & f & H1 & H2 & H5 & _ & H3 & _ & _ & H6 & H4 & _).
  - exact demo_reads.
  - reflexivity.
  - apply played_history. vm_compute. reflexivity.
  - exact story_no_pd.
  - apply same_curve_refl.
  - right; reflexivity.
  - left; reflexivity.
  - apply demo_derivable.
  - apply demo_derivable.
  - apply demo_derivable.
  - split; [reflexivity|]. split; [reflexivity|]. split; [reflexivity|]. split; [left; reflexivity|]. split; [left; reflexivity|]. split; [left; reflexivity|]. left. split; reflexivity.
  - intros m X. vm_compute in X. discriminate X.
  - intros l1 accounts _ _ _. reflexivity.
  - exact demo_helper_usual.
  - vm_compute. repeat split; reflexivity.
  - vm_compute. discriminate.
  - revert Hs. vm_compute. intro X. inversion X; subst ts. repeat split; auto; discriminate.
  - vm_compute. reflexivity.
  - lia.
  - revert Hs. vm_compute. intro X. inversion X; subst ts. discriminate.
  - reflexivity.
  - revert Hm. vm_compute. intro X. inversion X; subst mu. repeat split; auto; intros; discriminate.
  - vm_compute. reflexivity.
  - revert Hr. vm_compute. intro X. inversion X; subst tr. revert Hm. vm_compute. intro Y. inversion Y; subst mu.
    split; [repeat split; discriminate|]. split; [reflexivity|]. split; [reflexivity|]. split; [discriminate|]. intro Z. exfalso. apply Z. reflexivity.
  - vm_compute. reflexivity.
  - vm_compute. discriminate.
  - intros t X. change (a_data (now_of story (d_esc spl_token_id t22_id)) = DTok t) in X. rewrite He in X. inversion X; subst t. clear X. revert He. vm_compute. intro X. inversion X; subst te. split; [reflexivity|intros []].
  - intros [X|X]; exfalso; vm_compute in X; discriminate X.
  - exists t, l'. split; [exact H1|]. split; [exact H2|].
    assert (f = 0). { revert H5 Hm. clear. intros H5 Hm. revert Hm. vm_compute. intro X. inversion X; subst mu. exact H5. }
    subst f. split; [rewrite H6; vm_compute; reflexivity|]. split; [rewrite H3; vm_compute; reflexivity|exact H4].
Qed.

Example C52_consent_example : exists t l' who ts, js_transaction js_alice (js_single_wrap demo_env demo_dec js_alice js_alice_wraps (now_of story)) = Ok t /\
  accepted demo_env 5 t (now_of story) l' /\ token_account (now_of story) d_alice_u spl_token_id ts /\ who = t_owner ts /\ In who (tr_signed t).
Proof.
  destruct C52_example as (t & l' & H1 & H2 & _). destruct (C52_consent demo_env demo_dec js_alice js_alice_wraps (now_of story) t 5 l' H1 H2)
    as (n & p & u & ts & mu & who & _ & Um & T & M & W & S & _).
  exists t, l', who, ts. split; [exact H1|]. split; [exact H2|].
  assert (Eu : u = d_u). { destruct Um as [X|X]; [discriminate X|]. vm_compute in X. injection X as <-. reflexivity. } subst u.
  destruct T as (T1 & T2 & T3). destruct M as (M1 & M2). cbn [jw_source js_alice_wraps] in T1, T2.
  assert (E1 : a_owner (now_of story d_alice_u) = spl_token_id) by (vm_compute; reflexivity).
  assert (E2 : t_delegate ts = None). { revert T2. clear. vm_compute. intro X. inversion X. reflexivity. }
  assert (E3 : ext_permanent_delegate mu = None). { revert M1. clear. vm_compute. intro X. inversion X. reflexivity. }
  assert (E4 : t_owner ts = d_alice). { revert T2. clear. vm_compute. intro X. inversion X. reflexivity. }
  assert (Ew : who = t_owner ts). { destruct W as [W|[(W & _)|W]]; [exact W|rewrite E2 in W; discriminate W|rewrite E3 in W; discriminate W]. }
  split; [split; [exact E1|split; [exact T2|exact T3]]|]. split; [exact Ew|].
  destruct S as [S|(m & _ & S & _)]; [exact S|exfalso]. rewrite Ew, E4 in S. vm_compute in S. discriminate S.
Qed.
(** Bob pays and names Alice's account and address; without her signature nothing can happen. *)
Example C52_refused_example : exists t, js_transaction (mkSigner d_bob true)
    (js_single_wrap demo_env demo_dec (mkSigner d_bob true) (mkJsWrap d_alice_u t22_id 70 (Some (JsAddress d_alice)) None None None) (now_of story)) = Ok t /\
  forall fee l', ~ accepted demo_env fee t (now_of story) l'.
Proof.
  assert (S : exists ts, a_data (now_of story d_alice_u) = DTok ts) by (eexists; vm_compute; reflexivity). destruct S as [ts Hs].
  eexists. split; [vm_compute; reflexivity|]. intros fee l'.
  apply (C52_refused demo_env demo_dec (mkSigner d_bob true) (mkJsWrap d_alice_u t22_id 70 (Some (JsAddress d_alice)) None None None) (now_of story) _ fee l' spl_token_id ts).
  - vm_compute. reflexivity.
  - revert Hs. vm_compute. intro X. inversion X; subst ts. repeat split; auto; discriminate.
  - revert Hs. vm_compute. intro X. inversion X; subst ts. reflexivity.
  - intros u mu [X|X] (M & _); [discriminate X|]. vm_compute in X. injection X as <-. revert M. vm_compute. intro X. inversion X. reflexivity.
  - intros m X. assert (E4 : t_owner ts = d_alice). { revert Hs. clear. vm_compute. intro Y. inversion Y. reflexivity. } rewrite E4 in X. vm_compute in X. discriminate X.
  - assert (E4 : t_owner ts = d_alice). { revert Hs. clear. vm_compute. intro Y. inversion Y. reflexivity. } rewrite E4. intros s [-> |X] K; [discriminate K|discriminate X].
Qed.
