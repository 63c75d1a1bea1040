(** * PropJsTx.v — C50–C53: the JavaScript helpers that build transactions. *)
From Verif Require Import Base Codec State Pda TokenProg Cpi Ata Meta Processor Builders Cli Js Tac PdaProofs TokProofs ProcProofs Spec HistorySpec CliSpec JsSpec CloseProofs SpecLemmas
  CreateProofs CreateSpec InvState InvHist PropWrap PropEscrow CliProofs CliSign CliCreate CodecProofs PropBuilders PropCreate PropCli PropCliEscrow PropCliWrap PropCliUnwrap PropJs Demo Demo2 DemoHist.

(** ** Addresses are those of the Rust crate. *)
Lemma js_w_eq e u wtp : js_wrapped_mint e u wtp = get_wrapped_mint_address e u wtp.
Proof. reflexivity. Qed.
Lemma js_a_eq e w : js_authority e w = get_wrapped_mint_authority e w.
Proof. reflexivity. Qed.
Lemma js_b_eq e w : js_backpointer e w = get_wrapped_mint_backpointer_address e w.
Proof. reflexivity. Qed.
Lemma js_ata_eq e o m p : js_ata e o m p = get_associated_token_address e o m p.
Proof. reflexivity. Qed.

(** ** Signing *)
Lemma same_signer_refl s : same_signer s s = true.
Proof. unfold same_signer. rewrite pk_eqb_refl, Bool.eqb_reflx. reflexivity. Qed.
Lemma same_signer_yes s x : sg_signs s = true -> sg_signs x = true -> same_signer s x = true.
Proof. intros A B. unfold same_signer. rewrite A, B. apply orb_true_r. Qed.
Lemma all_yes_same ss : (forall s, In s ss -> sg_signs s = true) -> forallb (fun s => forallb (same_signer s) ss) ss = true.
Proof. intro H. apply forallb_forall. intros s Hs. apply forallb_forall. intros x Hx. apply same_signer_yes; auto. Qed.
Lemma one_each_in s ss : In s (one_each ss) -> In s ss.
Proof.
  induction ss as [|a r IH]; [intros []|]. cbn [one_each]. intros [H|H]; [left; exact H|]. right. apply IH. apply filter_In in H. exact (proj1 H).
Qed.
Lemma js_sign_payer payer ixs : sg_signs payer = true -> (forall ix, In ix ixs -> jx_signers ix = [payer] \/ jx_signers ix = []) ->
  js_sign payer ixs = Ok (mkTx (sg_key payer) (map jx_ix ixs) [sg_key payer]).
Proof.
  intros Y H. unfold js_sign.
  assert (A : forall s, In s (payer :: flat_map jx_signers ixs) -> s = payer).
  { intros s [<-|Hs]; [reflexivity|]. apply in_flat_map in Hs. destruct Hs as (ix & Hi & Hs). destruct (H ix Hi) as [E|E]; rewrite E in Hs; [destruct Hs as [<-|[]]; reflexivity|destruct Hs]. }
  assert (F : forallb (fun s => forallb (same_signer s) (payer :: flat_map jx_signers ixs)) (payer :: flat_map jx_signers ixs) = true).
  { apply all_yes_same. intros s Hs. rewrite (A s Hs). exact Y. }
  rewrite F. cbn [guard bind]. f_equal. f_equal. cbn [one_each filter]. rewrite Y.
  assert (Z : filter (fun x => negb (pk_eqb (sg_key x) (sg_key payer))) (one_each (flat_map jx_signers ixs)) = []).
  { destruct (filter _ _) as [|x r] eqn:E; [reflexivity|exfalso]. assert (X : In x (x :: r)) by (left; reflexivity). rewrite <- E in X. apply filter_In in X. destruct X as [X N].
    apply one_each_in in X. rewrite (A x (or_intror X)), pk_eqb_refl in N. discriminate N. }
  rewrite Z. reflexivity.
Qed.
Lemma js_sign_two payer ta ix : sg_signs payer = true -> sg_signs ta = true ->
  js_sign payer [mkJsIx ix [ta]] = Ok (mkTx (sg_key payer) [ix] (sg_key payer :: if pk_eqb (sg_key ta) (sg_key payer) then [] else [sg_key ta])).
Proof.
  intros Y T. unfold js_sign. cbn [flat_map jx_signers app].
  assert (F : forallb (fun s => forallb (same_signer s) [payer; ta]) [payer; ta] = true).
  { apply all_yes_same. intros s [<-|[<-|[]]]; assumption. }
  rewrite F. cbn [guard bind map jx_ix]. f_equal. f_equal. cbn [one_each filter]. rewrite Y. cbn [map]. destruct (pk_eqb (sg_key ta) (sg_key payer)); cbn [negb filter map]; [reflexivity|].
  rewrite T. reflexivity.
Qed.
Lemma pk_eqb_sym_false a b : pk_eqb a b = pk_eqb b a.
Proof.
  destruct (pk_eqb a b) eqn:E1, (pk_eqb b a) eqn:E2; try reflexivity;
    repeat match goal with H : pk_eqb _ _ = true |- _ => apply pk_eqb_eq in H | H : pk_eqb _ _ = false |- _ => apply pk_eqb_neq in H end; exfalso; auto.
Qed.
Lemma cli_sign_two e payer ta i : sg_signs ta = true -> signed (tx_metas i) (sg_key ta) ->
  partial_sign e payer [TxTokenWrap i] (tx_signers (mkSigner payer true) ta [] []) =
    Ok (mkTx payer [TxTokenWrap i] (payer :: if pk_eqb (sg_key ta) payer then [] else [sg_key ta])).
Proof.
  intros T S. unfold partial_sign, tx_signers. cbn [sg_key is_nil app]. rewrite (pk_eqb_sym_false payer (sg_key ta)). rewrite andb_true_r.
  assert (M1 : must_sign e payer [TxTokenWrap i] payer = true) by (apply one_signs; left; reflexivity).
  assert (M2 : must_sign e payer [TxTokenWrap i] (sg_key ta) = true) by (apply one_signs; right; exact S).
  destruct (pk_eqb (sg_key ta) payer) eqn:E; cbn [negb app forallb sg_key].
  - rewrite M1. cbn [andb guard bind map sg_key filter]. unfold signs. cbn [fold_left sg_key sg_signs]. rewrite pk_eqb_refl. reflexivity.
  - rewrite M1, M2. cbn [andb guard bind map sg_key filter]. unfold signs. cbn [fold_left sg_key sg_signs]. rewrite E, !pk_eqb_refl, T. reflexivity.
Qed.

(** ** C50: createMint makes the transaction of the create-mint command. *)
Lemma js_top_up_fund payer k rent have : map jx_ix (js_top_up payer k rent have) = fund (sg_key payer) k (rent - have).
Proof.
  unfold js_top_up, fund. destruct (have <? rent) eqn:E.
  - apply N.ltb_lt in E. assert (X : (0 <? rent - have) = true) by (apply N.ltb_lt; lia). rewrite X. reflexivity.
  - apply N.ltb_ge in E. assert (X : (0 <? rent - have) = false) by (apply N.ltb_ge; lia). rewrite X. reflexivity.
Qed.
Lemma js_top_up_signers payer k rent have ix : In ix (js_top_up payer k rent have) -> jx_signers ix = [payer].
Proof. unfold js_top_up. destruct (have <? rent); [|intros []]. intros [<-|[]]. reflexivity. Qed.
Theorem C50_same : forall e payer u wtp idempotent l,
  spl_or_t22 wtp -> sg_signs payer = true ->
  js_transaction payer (js_create_mint_helper e payer u wtp idempotent l) = cli_create_mint e (sg_key payer) u wtp idempotent l.
Proof.
  intros e payer u wtp idem l Tw Y. unfold js_transaction, js_create_mint_helper, cli_create_mint. rewrite (parse_ok wtp Tw). cbn [bind]. rewrite js_w_eq.
  destruct (get_wrapped_mint_address e u wtp) as [w|err]; [|reflexivity]. cbn [bind]. rewrite js_b_eq.
  destruct (get_wrapped_mint_backpointer_address e w) as [b|err]; [|reflexivity]. cbn [bind]. cbv zeta.
  rewrite js_sign_payer.
  - rewrite !map_app, !js_top_up_fund. change js_default_mint_size with default_space. change js_mint_size with mint_base_len. reflexivity.
  - exact Y.
  - intros ix H. apply in_app_or in H. destruct H as [H|H]; [left; exact (js_top_up_signers _ _ _ _ _ H)|]. apply in_app_or in H.
    destruct H as [H|[<-|[]]]; [left; exact (js_top_up_signers _ _ _ _ _ H)|right; reflexivity].
Qed.
Print Assumptions C50_same.
(** So (C40) it creates the wrapped mint and its backpointer at exactly the missing rent. *)
Theorem C50_creates : forall e fee payer u wtp idempotent l mu size,
  sg_signs payer = true ->
  spl_or_t22 wtp -> addresses_exist e u wtp -> spl_or_t22 (a_owner (l u)) -> mint_data l u mu -> promised_size wtp size ->
  let w := wrapped_mint_of e u wtp in let b := backpointer_of e w in
  unallocated l w -> unallocated l b -> wallet l (sg_key payer) ->
  e_rent e size < two64 -> e_rent e 32 < two64 -> lamports l w < two64 -> lamports l b < two64 ->
  let cost := (e_rent e size - lamports l w) + (e_rent e 32 - lamports l b) in fee + cost + e_rent e 0 <= lamports l (sg_key payer) ->
  exists t l' exts,
    js_transaction payer (js_create_mint_helper e payer u wtp idempotent l) = Ok t /\ accepted e fee t l l' /\
    promised_extensions wtp w (authority_of e w) exts /\
    l' w = mkAcc (N.max (lamports l w) (e_rent e size))
             (DMint (mkMint (Some (authority_of e w)) 0 (m_decimals mu) true (m_freeze mu) exts size)) wtp /\
    l' b = mkAcc (N.max (lamports l b) (e_rent e 32)) (DKey u) tw_id /\
    paid l l' (sg_key payer) (fee + cost) /\ only_changed l l' [sg_key payer; w; b].
Proof.
  intros e fee payer u wtp idem l mu size Y Tw Ad Tu M Sz w b Nw Nb Wal R1 R2 L1 L2 cost Fee. rewrite (C50_same e payer u wtp idem l Tw Y).
  exact (C40_creates e fee (sg_key payer) u wtp idem l mu size Tw Ad Tu M Sz Nw Nb Wal R1 R2 L1 L2 Fee).
Qed.
Print Assumptions C50_creates.

(** ** C51: createEscrowAccount makes the transaction of the create-escrow-account command, if the address is untouched. *)
Definition js_opt_transaction (payer : signer) (r : res (option (list js_ix))) : res (option transaction) :=
  o <- r ;; match o with Some ixs => t <- js_sign payer ixs ;; Ok (Some t) | None => Ok None end.
Lemma js_create_escrow_eval e dec payer u utp wtp l :
  a_owner (l u) = utp -> 0 < lamports l u ->
  derivable e (wrapped_mint_seeds u wtp) tw_id -> derivable e (wrapped_mint_authority_seeds (wrapped_mint_of e u wtp)) tw_id ->
  derivable e (ata_seeds (authority_of e (wrapped_mint_of e u wtp)) u utp) ata_id ->
  js_create_escrow e dec payer u wtp l =
    if lamports l (escrow_of e u utp wtp) =? 0
    then Ok (Some [mkJsIx (TxAssociated (sg_key payer) (authority_of e (wrapped_mint_of e u wtp)) u utp) [payer]])
    else (_ <- dec (a_data (l (escrow_of e u utp wtp))) ;; Ok None).
Proof.
  intros O L D1 D2 D3. unfold js_create_escrow. rewrite js_w_eq, (get_w_ok e u wtp D1). cbn [bind]. rewrite js_a_eq, (get_a_ok e _ D2). cbn [bind].
  unfold js_owner. rewrite (owner_ok l u L), O. cbn [bind]. rewrite js_ata_eq, (get_ata_live e _ u utp D3). cbn [bind].
  change (ata_of e (authority_of e (wrapped_mint_of e u wtp)) u utp) with (escrow_of e u utp wtp). unfold get_account. unfold lamports.
  destruct (a_lamports (l (escrow_of e u utp wtp)) =? 0); reflexivity.
Qed.
Theorem C51_same : forall e dec payer u utp wtp idempotent l mu,
  sg_signs payer = true -> spl_or_t22 wtp -> spl_or_t22 utp -> mint_account l u utp mu -> 0 < lamports l u ->
  let w := wrapped_mint_of e u wtp in let a := authority_of e w in
  derivable e (wrapped_mint_seeds u wtp) tw_id -> derivable e (wrapped_mint_authority_seeds w) tw_id -> derivable e (ata_seeds a u utp) ata_id ->
  lamports l (escrow_of e u utp wtp) = 0 ->
  js_opt_transaction payer (js_create_escrow e dec payer u wtp l) = cli_create_escrow e (sg_key payer) u wtp idempotent l.
Proof.
  intros e dec payer u utp wtp idem l mu Y Tw Tu M L w a D1 D2 D3 Z.
  rewrite (js_create_escrow_eval e dec payer u utp wtp l (proj1 M) L D1 D2 D3), (cli_create_escrow_eval e (sg_key payer) u utp wtp idem l mu Tw Tu M L D1 D2 D3), Z.
  cbn [N.eqb js_opt_transaction bind]. rewrite js_sign_payer; [reflexivity|exact Y|]. intros ix [<-|[]]. left. reflexivity.
Qed.
Print Assumptions C51_same.
Theorem C51_creates : forall e0 e dec fee payer u utp wtp l mu,
  sg_signs payer = true ->
  reachable e0 l -> same_curve e0 e -> spl_or_t22 wtp -> spl_or_t22 utp -> mint_account l u utp mu -> 0 < lamports l u ->
  let w := wrapped_mint_of e u wtp in let a := authority_of e w in let esc := escrow_of e u utp wtp in
  derivable e (wrapped_mint_seeds u wtp) tw_id -> derivable e (wrapped_mint_authority_seeds w) tw_id -> derivable e (ata_seeds a u utp) ata_id ->
  unallocated l esc -> lamports l esc = 0 -> wallet l (sg_key payer) ->
  let rent := N.max 1 (e_rent e (tok_space (init_account_exts utp mu true))) in rent < two64 -> fee + rent + e_rent e 0 <= lamports l (sg_key payer) ->
  exists t l' te,
    js_opt_transaction payer (js_create_escrow e dec payer u wtp l) = Ok (Some t) /\ accepted e fee t l l' /\ l' esc = mkAcc rent (DTok te) utp /\
    t_mint te = u /\ t_owner te = a /\ t_delegate te = None /\ t_close te = None /\ (utp = t22_id -> healthy mu te) /\ (~ native_mint u -> t_amount te = 0) /\
    t_state te = ext_default_state mu /\ paid l l' (sg_key payer) (fee + rent) /\ only_changed l l' [sg_key payer; esc].
Proof.
  intros e0 e dec fee payer u utp wtp l mu Y R C Tw Tu M L w a esc D1 D2 D3 U Z Wal rent R1 Fee.
  rewrite (C51_same e dec payer u utp wtp false l mu Y Tw Tu M L D1 D2 D3 Z).
  destruct (C41_creates e0 e fee (sg_key payer) u utp wtp false l mu R C Tw Tu M L D1 D2 D3 U Z Wal R1 Fee) as (t & l' & te & A1 & A2 & A3 & _ & A4).
  exists t, l', te. split; [exact A1|]. split; [exact A2|]. split; [exact A3|exact A4].
Qed.
Print Assumptions C51_creates.
(** An existing escrow is reported.  But one lamport at the address, sent by anybody, and the helper fails: the decoder throws
    on an account without data.  It never creates the escrow then. *)
Theorem C51_exists : forall e dec payer u utp wtp l te,
  reads_mints dec -> a_owner (l u) = utp -> 0 < lamports l u ->
  let w := wrapped_mint_of e u wtp in let a := authority_of e w in let esc := escrow_of e u utp wtp in
  derivable e (wrapped_mint_seeds u wtp) tw_id -> derivable e (wrapped_mint_authority_seeds w) tw_id -> derivable e (ata_seeds a u utp) ata_id ->
  a_data (l esc) = DTok te -> 0 < lamports l esc -> js_create_escrow e dec payer u wtp l = Ok None.
Proof.
  intros e dec payer u utp wtp l te Rd O L w a esc D1 D2 D3 De Le. rewrite (js_create_escrow_eval e dec payer u utp wtp l O L D1 D2 D3).
  fold w. fold esc. assert (X : (lamports l esc =? 0) = false) by (apply N.eqb_neq; lia). rewrite X, De, (Rd te). reflexivity.
Qed.
Print Assumptions C51_exists.
Theorem C51_squatted_refuted : forall e0 e dec payer u utp wtp l mu k,
  (forall bs, exists err, dec (DRaw bs) = Err err) ->
  reachable e0 l -> spl_or_t22 wtp -> spl_or_t22 utp -> mint_account l u utp mu -> 0 < lamports l u ->
  let w := wrapped_mint_of e u wtp in let esc := escrow_of e u utp wtp in
  derivable e (wrapped_mint_seeds u wtp) tw_id -> derivable e (wrapped_mint_authority_seeds w) tw_id -> derivable e (ata_seeds (authority_of e w) u utp) ata_id ->
  unallocated l esc -> lamports l esc + 1 < two64 -> wallet l k -> 1 <= lamports l k ->
  exists l1 err, sys_transfer k esc 1 l = Ok l1 /\ reachable e0 l1 /\ unallocated l1 esc /\ js_create_escrow e dec payer u wtp l1 = Err err.
Proof.
  intros e0 e dec payer u utp wtp l mu k Dt R Tw Tu M L w esc D1 D2 D3 U B Wal K.
  destruct (C41_squatted e0 e (sg_key payer) u utp wtp l mu k R Tw Tu M L D1 D2 D3 U B Wal K) as (l1 & S & R1 & U1 & X & _).
  fold w in U1. fold esc in S, U1. exists l1. pose proof (sys_transfer_inv k esc 1 l l1 S) as (_ & _ & Sk).
  assert (M1 : a_owner (l1 u) = utp) by (rewrite (proj1 (proj2 (Sk u))); exact (proj1 M)).
  assert (Nk : u <> k). { intro E. subst k. destruct Wal as (_ & Wd & _). destruct M as (_ & Md & _). rewrite Wd in Md. discriminate Md. }
  assert (L1 : 0 < lamports l1 u). { pose proof (proj2 (proj2 (Sk u)) Nk). unfold lamports in *. lia. }
  destruct (Dt []) as [err E]. exists err. split; [exact S|]. split; [exact R1|]. split; [exact U1|].
  rewrite (js_create_escrow_eval e dec payer u utp wtp l1 M1 L1 D1 D2 D3). fold w. fold esc.
  assert (Z : (lamports l1 esc =? 0) = false).
  { destruct (lamports l1 esc =? 0) eqn:Z; [exfalso|reflexivity]. rewrite (cli_create_escrow_eval e (sg_key payer) u utp wtp true l1 mu Tw Tu) in X.
    - fold w in X. fold esc in X. rewrite Z in X. discriminate X.
    - split; [exact M1|]. destruct M as (_ & Md & Mr). split; [rewrite (proj1 (Sk u)); exact Md|exact Mr].
    - exact L1.
    - exact D1.
    - exact D2.
    - exact D3. }
  rewrite Z. destruct U1 as (Ud & _). rewrite Ud, E. reflexivity.
Qed.
Print Assumptions C51_squatted_refuted.

(** ** C52: singleSignerWrap wraps what was asked. *)
Lemma js_mint_of_ok dec l k p t : reads_mints dec -> token_account l k p t -> 0 < lamports l k -> js_mint_of dec l k = Ok (t_mint t).
Proof.
  intros R (_ & D & _) L. unfold js_mint_of, get_account. assert (X : (a_lamports (l k) =? 0) = false) by (apply N.eqb_neq; unfold lamports in L; lia). rewrite X. cbn [bind].
  rewrite D. apply R.
Qed.
Definition js_signer_of (payer : signer) (authority : option js_account) : signer :=
  match authority with Some (JsSigner s) => s | _ => payer end.
Definition cli_authority (authority : option js_account) : option signer :=
  match authority with Some (JsSigner s) => Some s | _ => None end.
Lemma js_acting_signs payer owner authority : sg_signs payer = true -> js_acting (sg_key payer) owner authority ->
  sg_key (js_signer_of payer authority) = owner /\ sg_signs (js_signer_of payer authority) = true /\
  js_or authority (JsSigner payer) = JsSigner (js_signer_of payer authority) /\
  sg_key (acting (sg_key payer) (cli_authority authority)) = owner /\ sg_signs (acting (sg_key payer) (cli_authority authority)) = true.
Proof.
  intros Y [(-> & ->)|(s & -> & K & S)]; cbn; [repeat split; auto|]. repeat split; auto.
Qed.
Definition cli_wrap_args (x : js_wrap_args) (n : N) : wrap_args :=
  mkWrapArgs (jw_source x) (jw_wtp x) n (cli_authority (jw_authority x)) (jw_mint x) (jw_recipient x) (jw_utp x) [] [].
Lemma js_wrap_eval e dec payer x u utp wtp source recipient owner n l ts w a esc :
  reads_mints dec -> sg_signs payer = true -> js_wrap_asks e (sg_key payer) x u utp wtp source recipient owner n -> n < two64 ->
  token_account l source utp ts -> t_mint ts = u -> 0 < lamports l source ->
  w = wrapped_mint_of e u wtp -> a = authority_of e w -> esc = escrow_of e u utp wtp ->
  derivable e (wrapped_mint_seeds u wtp) tw_id -> derivable e (wrapped_mint_authority_seeds w) tw_id -> derivable e (ata_seeds a u utp) ata_id ->
  js_single_wrap e dec payer x l =
    Ok [mkJsIx (TxTokenWrap (build_wrap tw_id recipient w a utp wtp source u esc owner [] n)) [js_signer_of payer (jw_authority x)]].
Proof.
  intros Rd Y (A1 & A2 & A3 & A4 & A5 & A6 & A7) Lt Hs Ms L Ew Ea Ee D1 D2 D3. destruct (js_acting_signs payer owner _ Y A7) as (K1 & _ & K3 & _).
  unfold js_single_wrap. rewrite A1, A2, A3.
  assert (E1 : match jw_mint x with Some m => Ok m | None => js_mint_of dec l source end = Ok u).
  { destruct A4 as [-> | ->]; [|reflexivity]. rewrite (js_mint_of_ok dec l source utp ts Rd Hs L), Ms. reflexivity. }
  rewrite E1. cbn [bind].
  assert (E3 : match jw_utp x with Some p => Ok p | None => js_owner l source end = Ok utp).
  { destruct A5 as [-> | ->]; [|reflexivity]. unfold js_owner. rewrite (owner_ok l source L). destruct Hs as (-> & _). reflexivity. }
  rewrite E3. cbn [bind]. rewrite js_w_eq, (get_w_ok e u wtp D1), <- Ew. cbn [bind]. rewrite js_a_eq, (get_a_ok e w D2), <- Ea. cbn [bind].
  assert (E2 : match jw_recipient x with Some k => Ok k | None => js_ata e (sg_key payer) w wtp end = Ok recipient).
  { destruct A6 as [-> |(-> & -> & D)]; [reflexivity|]. rewrite js_ata_eq, Ew. exact (get_ata_live e (sg_key payer) _ wtp D). }
  rewrite E2. cbn [bind]. cbv zeta. rewrite K3. unfold js_build_wrap. rewrite js_ata_eq, (get_ata_live e a u utp D3). cbn [bind].
  assert (Ex : ata_of e a u utp = esc) by (rewrite Ea, Ew, Ee; reflexivity). rewrite Ex.
  assert (Bw : js_wrap tw_id recipient w a utp wtp source u esc (JsSigner (js_signer_of payer (jw_authority x))) (Z.of_N n) [] =
               Ok (build_wrap tw_id recipient w a utp wtp source u esc (sg_key (js_signer_of payer (jw_authority x))) [] n)).
  { unfold js_wrap. rewrite (js_u64_ok n Lt). reflexivity. }
  rewrite Bw, K1. reflexivity.
Qed.
Lemma js_wrap_cli e dec payer x u utp wtp source recipient owner n l ts w a esc :
  reads_mints dec -> sg_signs payer = true -> js_wrap_asks e (sg_key payer) x u utp wtp source recipient owner n -> n < two64 -> spl_or_t22 wtp -> spl_or_t22 utp ->
  token_account l source utp ts -> t_mint ts = u -> 0 < lamports l source ->
  w = wrapped_mint_of e u wtp -> a = authority_of e w -> esc = escrow_of e u utp wtp ->
  derivable e (wrapped_mint_seeds u wtp) tw_id -> derivable e (wrapped_mint_authority_seeds w) tw_id -> derivable e (ata_seeds a u utp) ata_id ->
  wrap_asks e (sg_key payer) (cli_wrap_args x n) u utp wtp source recipient owner [] n /\
  js_transaction payer (js_single_wrap e dec payer x l) = cli_wrap e (sg_key payer) (cli_wrap_args x n) l.
Proof.
  intros Rd Y Ask Lt Tw Tu Hs Ms L Ew Ea Ee D1 D2 D3. pose proof Ask as (A1 & A2 & A3 & A4 & A5 & A6 & A7).
  destruct (js_acting_signs payer owner _ Y A7) as (K1 & K2 & K3 & K4 & K5).
  assert (W : wrap_asks e (sg_key payer) (cli_wrap_args x n) u utp wtp source recipient owner [] n).
  { unfold wrap_asks, cli_wrap_args. cbn [wa_source wa_wtp wa_amount wa_mint wa_utp wa_recipient wa_authority wa_multisig wa_presigners map].
    split; [exact A1|]. split; [exact A2|]. split; [reflexivity|]. split; [exact A4|]. split; [exact A5|]. split; [exact A6|]. split; [exact K4|]. split; [reflexivity|].
    split; [intros s []|]. intros k _. right. intros s [<-|[]] _. exact K5. }
  split; [exact W|].
  rewrite (js_wrap_eval e dec payer x u utp wtp source recipient owner n l ts w a esc Rd Y Ask Lt Hs Ms L Ew Ea Ee D1 D2 D3).
  rewrite (cli_wrap_eval e (sg_key payer) (cli_wrap_args x n) u utp wtp source recipient owner [] n l ts w a esc W Tw Tu Hs Ms L Ew Ea Ee D1 D2 D3).
  unfold js_transaction. cbn [bind]. rewrite (js_sign_two payer _ _ Y K2). cbn [cli_wrap_args wa_authority wa_multisig wa_presigners].
  rewrite (cli_sign_two e (sg_key payer) (acting (sg_key payer) (cli_authority (jw_authority x)))); [rewrite K1, K4; reflexivity|exact K5|].
  rewrite K4. exists (meta_r owner true). split; [|split; reflexivity]. do 8 right. left. reflexivity.
Qed.
Theorem C52_wraps : forall e0 e past l dec fee payer x u utp wtp source recipient owner n mu mw ts te tr,
  reads_mints dec -> sg_signs payer = true ->
  history e0 past l -> same_curve e0 e -> spl_or_t22 wtp -> spl_or_t22 utp ->
  let w := wrapped_mint_of e u wtp in let a := authority_of e w in let esc := escrow_of e u utp wtp in
  derivable e (wrapped_mint_seeds u wtp) tw_id -> derivable e (wrapped_mint_authority_seeds w) tw_id -> derivable e (ata_seeds a u utp) ata_id ->
  js_wrap_asks e (sg_key payer) x u utp wtp source recipient owner n ->
  (forall m, a_data (l owner) <> DMultisig m) -> helper_appends e l owner [] ->
  wallet l (sg_key payer) -> fee + e_rent e 0 <= lamports l (sg_key payer) ->
  holder l utp u source owner ts -> open_account l source -> 0 < lamports l source -> 0 < n -> n <= t_amount ts -> n < two64 -> source <> esc ->
  transferable l utp u mu ->
  token_account l esc utp te -> t_state te = Initialized -> (ext_fee mu <> None -> In XtTransferFeeAmount (map acct_ext_type_of (t_exts te))) ->
  mint_account l w wtp mw -> token_account l recipient wtp tr -> t_mint tr = w -> t_state tr = Initialized ->
  (ever (no_permanent_delegate u) past l \/ supply l w + n < two64) ->
  (native_mint u -> lamports l esc + lamports l source < two64 /\ e_rent e (data_len (a_data (l source))) + n <= lamports l source /\
                    e_rent e (data_len (a_data (l esc))) <= lamports l esc) ->
  exists t l' f, js_transaction payer (js_single_wrap e dec payer x l) = Ok t /\ accepted e fee t l l' /\ fee_for mu (e_epoch e) n f /\ f <= n /\
    balance l' source = balance l source - n /\ balance l' esc = balance l esc + (n - f) /\
    balance l' recipient = balance l recipient + (n - f) /\ supply l' w = supply l w + (n - f) /\
    paid l l' (sg_key payer) fee /\ only_changed l l' [sg_key payer; source; esc; w; recipient].
Proof.
  intros e0 e past l dec fee payer x u utp wtp source recipient owner n mu mw ts te tr Rd Y H C Tw Tu w a esc D1 D2 D3 Ask Nm Hx Wal Fee
    Hs Op Ls Pos Le Lt Ne Hu He Ste Wit Hw Hr Mr Sr Sup Nat.
  pose proof Hs as (Ha & Hm & _).
  destruct (js_wrap_cli e dec payer x u utp wtp source recipient owner n l ts w a esc Rd Y Ask Lt Tw Tu Ha Hm Ls eq_refl eq_refl eq_refl D1 D2 D3) as [W E].
  rewrite E.
  refine (C42_wraps e0 e past l fee (sg_key payer) (cli_wrap_args x n) u utp wtp source recipient owner [] n mu mw ts te tr H C Tw Tu D1 D2 D3 W _ Hx _ Wal Fee
    Hs Op Ls Pos Le Lt Ne Hu He Ste Wit Hw Hr Mr Sr Sup Nat).
  - left. split; [reflexivity|]. intros m X. exfalso. exact (Nm m X).
  - intros m X. exfalso. exact (Nm m X).
Qed.
Print Assumptions C52_wraps.
(** Whatever the state: what is returned is one Wrap of exactly the amount, source, mint and recipient asked for, into the
    genuine escrow of that mint, signed for by the authority named (the payer by default). *)
Lemma js_ata_found e o m p k : js_ata e o m p = Ok k -> k = ata_of e o m p.
Proof. rewrite js_ata_eq. apply get_ata_ok. Qed.
Lemma js_w_found e u p k : js_wrapped_mint e u p = Ok k -> k = wrapped_mint_of e u p.
Proof. rewrite js_w_eq. apply get_wrapped_mint_address_ok. Qed.
Lemma js_a_found e w k : js_authority e w = Ok k -> k = authority_of e w.
Proof. rewrite js_a_eq. apply get_wrapped_mint_authority_ok. Qed.
Lemma js_mint_of_inv dec l k u : js_mint_of dec l k = Ok u -> dec (a_data (l k)) = Ok u.
Proof. unfold js_mint_of, get_account. destruct (a_lamports (l k) =? 0); [discriminate|]. exact (fun H => H). Qed.
Theorem C52_means : forall e dec payer x l ixs, js_single_wrap e dec payer x l = Ok ixs ->
  exists n u utp r i,
    let w := wrapped_mint_of e u (jw_wtp x) in let ta := js_or (jw_authority x) (JsSigner payer) in
    jw_amount x = Z.of_N n /\ n < two64 /\
    (jw_mint x = Some u \/ jw_mint x = None /\ dec (a_data (l (jw_source x))) = Ok u) /\
    (jw_utp x = Some utp \/ jw_utp x = None /\ a_owner (l (jw_source x)) = utp) /\
    (jw_recipient x = Some r \/ jw_recipient x = None /\ r = ata_of e (sg_key payer) w (jw_wtp x)) /\
    ixs = [mkJsIx (TxTokenWrap i) (js_signers ta)] /\ tx_prog i = tw_id /\ unpack (tx_data i) = Ok (Wrap n) /\
    map i_key (tx_metas i) = [r; w; authority_of e w; utp; jw_wtp x; jw_source x; u; escrow_of e u utp (jw_wtp x); js_address ta] /\
    (forall k, signed (tx_metas i) k <-> exists s, ta = JsSigner s /\ sg_key s = k).
Proof.
  intros e dec payer x l ixs H. unfold js_single_wrap in H. apply bind_ok in H. destruct H as (u & Eu & H). apply bind_ok in H. destruct H as (utp & Ep & H).
  apply bind_ok in H. destruct H as (w & Ew & H). apply bind_ok in H. destruct H as (a & Ea & H). apply bind_ok in H. destruct H as (r & Er & H). cbv zeta in H.
  apply bind_ok in H. destruct H as (i & Ei & H). injection H as <-. unfold js_build_wrap in Ei. apply bind_ok in Ei. destruct Ei as (esc & Ee & Ei).
  apply bind_ok in Ei. destruct Ei as (ix & Ex & Ei). injection Ei as <-. unfold js_wrap in Ex. apply bind_ok in Ex. destruct Ex as (d & Ed & Ex). injection Ex as <-.
  apply js_u64_inv in Ed. destruct Ed as (n & En & Ln & ->). apply js_w_found in Ew. apply js_a_found in Ea. apply js_ata_found in Ee.
  exists n, u, utp, r. eexists. cbv zeta.
  split; [exact En|]. split; [exact Ln|].
  split. { destruct (jw_mint x) as [k|]; [left; injection Eu as ->; reflexivity|right; split; [reflexivity|exact (js_mint_of_inv dec l _ u Eu)]]. }
  split. { destruct (jw_utp x) as [k|]; [left; injection Ep as ->; reflexivity|right; split; [reflexivity|]]. apply owner_inv in Ep. symmetry. exact Ep. }
  split. { destruct (jw_recipient x) as [k|]; [left; injection Er as ->; reflexivity|right; split; [reflexivity|]]. rewrite <- Ew. exact (js_ata_found _ _ _ _ _ Er). }
  split; [rewrite app_nil_r; reflexivity|]. split; [reflexivity|].
  split. { change (tx_data _) with (pack (Wrap n)). apply unpack_pack. exact Ln. }
  split. { change (escrow_of e u utp (jw_wtp x)) with (ata_of e (authority_of e (wrapped_mint_of e u (jw_wtp x))) u utp). rewrite <- Ew, <- Ea, <- Ee. destruct (js_or (jw_authority x) (JsSigner payer)); reflexivity. }
  intro k. cbn [tx_metas map app]. split.
  - intros (m & Hm & K & S). repeat (destruct Hm as [<-|Hm]; [try discriminate S|]); [|destruct Hm].
    destruct (js_or (jw_authority x) (JsSigner payer)) as [s|q]; [exists s; split; [reflexivity|exact K]|discriminate S].
  - intros (s & E & K). rewrite E. exists (mkInfo (sg_key s) true false). split; [do 8 right; left; reflexivity|]. split; [exact K|reflexivity].
Qed.
Print Assumptions C52_means.
