(** * PropCliRun.v — C65: running the client's commands: signing offline, trying out, sending. *)
From Verif Require Import Base Codec State Pda TokenProg Cpi Ata Meta Processor Builders Cli Js CliRun Tac PdaProofs TokProofs ProcProofs Spec HistorySpec CliSpec JsSpec CliRunSpec CloseProofs SpecLemmas
  WrapProofs CreateProofs CreateSpec InvState InvHist PropWrap PropEscrow CliProofs CliSign CliCreate PropCreate PropCli PropCliEscrow PropCliWrap PropCliUnwrap PropJs PropJsTx PropJsUnwrap PropJsMulti CliRunProofs
  Demo Demo2 DemoHist.

(** ** Nothing happens unless it is sent *)
Lemma process_dry e fee net h t l : process_transaction e fee net true h t l = (l, Simulated).
Proof. reflexivity. Qed.
Theorem C65_no_effect : forall e fee net cfg c l,
  cf_dry_run cfg = true \/ (exists o, options c = Some o /\ so_sign_only o = true) -> fst (run_line e fee net cfg c l) = l.
Proof.
  intros e fee net cfg c l H. destruct (options c) as [o|] eqn:O.
  - destruct (run_line e fee net cfg c l) as [l' r] eqn:R. cbn [fst]. destruct (run_inv e fee net cfg c o l l' r O R) as [(-> & _)|(i & Q & G & F)]; [reflexivity|].
    rewrite (run_fits e fee net cfg c o l i O Q G F) in R. destruct (so_sign_only o) eqn:S; [injection R as <- _; reflexivity|].
    destruct H as [D|(o' & X & Y)]; [|injection X as <-; rewrite Y in S; discriminate S]. rewrite D in R. injection R as <- _. reflexivity.
  - destruct H as [D|(o' & X & _)]; [|discriminate X].
    assert (P : forall strict r, fst (process_plain e fee net cfg strict r l) = l).
    { intros strict r. unfold process_plain. rewrite D. destruct r as [[t|]|err]; [|reflexivity|reflexivity]. destruct (sg_signs (cf_payer cfg)); [reflexivity|]. destruct strict; reflexivity. }
    destruct c; cbn [options] in O; try discriminate O; cbn [run_line]; try apply P. destruct (cli_find_pdas e u wtp l) as [[[[w a] b] esc]|err]; reflexivity.
Qed.
Print Assumptions C65_no_effect.
(** Whatever the command, all of it happens or, at most, the fee is paid. *)
Lemma process_cases e fee net dry h t l l' r : process_transaction e fee net dry h t l = (l', r) ->
  (l' = l /\ r <> Confirmed) \/ (l' = charge (tr_payer t) fee l /\ r <> Confirmed) \/ (r = Confirmed /\ dry = false /\ nt_recent net h = true /\ accepted e fee t l l').
Proof.
  unfold process_transaction. destruct dry; [intro H; injection H as <- <-; left; split; [reflexivity|discriminate]|].
  destruct (nt_recent net h) eqn:N; cbn [negb]; [|intro H; injection H as <- <-; left; split; [reflexivity|discriminate]].
  destruct (send e fee t l) as [l1 x] eqn:S. intro H. injection H as <- <-. pose proof (send_cases e fee t l l1 x S) as [(-> & err & ->)|(_ & _ & _ & _ & [(-> & err & ->)|(-> & _)])].
  - left. split; [reflexivity|discriminate].
  - right. left. split; [reflexivity|discriminate].
  - right. right. split; [reflexivity|]. split; [reflexivity|]. split; [reflexivity|exact S].
Qed.
Lemma some_one {A} (r : res A) : some r = one r.
Proof. destruct r; reflexivity. Qed.
Definition plain (c : command_line) : option command :=
  match c with
  | LineCreateMint u wtp i => Some (CmdCreateMint u wtp i)
  | LineCreateEscrow u wtp i => Some (CmdCreateEscrow u wtp i)
  | LineCloseStuckEscrow u d wtp => Some (CmdCloseStuckEscrow u d wtp)
  | LineSyncToToken2022 u s p => Some (CmdSyncToToken2022 u s p)
  | LineSyncToSplToken u s p => Some (CmdSyncToSplToken u s p)
  | _ => None
  end.
Lemma plain_payer e P c x l t : plain c = Some x -> transaction_of e P x l = Ok (Some t) -> tr_payer t = P.
Proof.
  destruct c; cbn [plain]; intro H; try discriminate H; injection H as <-; cbn [transaction_of].
  - intro T. destruct (cli_create_mint e P u wtp idempotent l) as [t1|err] eqn:Q; [|discriminate T]. injection T as <-. unfold cli_create_mint in Q.
    apply bind_ok in Q. destruct Q as (q1 & _ & Q). apply bind_ok in Q. destruct Q as (q2 & _ & Q). apply bind_ok in Q. destruct Q as (q3 & _ & Q). cbv zeta in Q. injection Q as <-. reflexivity.
  - intro Q. unfold cli_create_escrow in Q. do 6 (apply bind_ok in Q; destruct Q as (? & _ & Q)). destruct (get_account l _) as [y|err]; [destruct idempotent; discriminate Q|]. injection Q as <-. reflexivity.
  - intro T. destruct (cli_close_stuck_escrow e P u destination wtp l) as [t1|err] eqn:Q; [|discriminate T]. injection T as <-. unfold cli_close_stuck_escrow in Q.
    do 6 (apply bind_ok in Q; destruct Q as (? & _ & Q)). injection Q as <-. reflexivity.
  - intro T. destruct (cli_sync_to_token_2022 e P u source program l) as [t1|err] eqn:Q; [|discriminate T]. injection T as <-. unfold cli_sync_to_token_2022 in Q.
    do 3 (apply bind_ok in Q; destruct Q as (? & _ & Q)). injection Q as <-. reflexivity.
  - intro T. destruct (cli_sync_to_spl_token e P u source program l) as [t1|err] eqn:Q; [|discriminate T]. injection T as <-. unfold cli_sync_to_spl_token in Q.
    do 3 (apply bind_ok in Q; destruct Q as (? & _ & Q)). injection Q as <-. reflexivity.
Qed.
Lemma run_plain e fee net cfg c x l : plain c = Some x ->
  exists strict, run_line e fee net cfg c l = process_plain e fee net cfg strict (transaction_of e (sg_key (cf_payer cfg)) x l) l.
Proof.
  destruct c; cbn [plain]; intro H; try discriminate H; injection H as <-; cbn [run_line transaction_of]; rewrite ?some_one; eexists; reflexivity.
Qed.
Lemma plain_cases e fee net cfg c l l' r x : plain c = Some x -> run_line e fee net cfg c l = (l', r) ->
  (l' = l /\ r <> Confirmed) \/ (l' = charge (sg_key (cf_payer cfg)) fee l /\ r <> Confirmed) \/
  (r = Confirmed /\ cf_dry_run cfg = false /\ nt_recent net (nt_latest net) = true /\
   exists t, transaction_of e (sg_key (cf_payer cfg)) x l = Ok (Some t) /\ accepted e fee (if sg_signs (cf_payer cfg) then t else mkTx (tr_payer t) (tr_ixs t) []) l l').
Proof.
  intros P H. destruct (run_plain e fee net cfg c x l P) as (strict & R). rewrite R in H. unfold process_plain in H.
  destruct (transaction_of e (sg_key (cf_payer cfg)) x l) as [[t|]|err] eqn:T; [|injection H as <- <-; left; split; [reflexivity|discriminate]|injection H as <- <-; left; split; [reflexivity|discriminate]].
  pose proof (plain_payer e _ c x l t P T) as Pt. destruct (sg_signs (cf_payer cfg)).
  - destruct (process_cases _ _ _ _ _ _ _ _ _ H) as [A|[A|(A & B & C & D)]]; [left; exact A|right; left; rewrite <- Pt; exact A|right; right].
    split; [exact A|]. split; [exact B|]. split; [exact C|]. exists t. split; [reflexivity|exact D].
  - destruct strict; [injection H as <- <-; left; split; [reflexivity|discriminate]|].
    destruct (process_cases _ _ _ _ _ _ _ _ _ H) as [A|[A|(A & B & C & D)]]; [left; exact A|right; left; rewrite <- Pt; exact A|right; right].
    split; [exact A|]. split; [exact B|]. split; [exact C|]. exists t. split; [reflexivity|exact D].
Qed.
Theorem C65_all_or_fee : forall e fee net cfg c l l' r,
  run_line e fee net cfg c l = (l', r) -> r <> Confirmed -> l' = l \/ l' = charge (sg_key (cf_payer cfg)) fee l.
Proof.
  intros e fee net cfg c l l' r R N. destruct (options c) as [o|] eqn:O.
  - destruct (run_inv e fee net cfg c o l l' r O R) as [(-> & _)|(i & Q & G & F)]; [left; reflexivity|].
    rewrite (run_fits e fee net cfg c o l i O Q G F) in R. destruct (so_sign_only o); [injection R as <- _; left; reflexivity|].
    destruct (process_cases _ _ _ _ _ _ _ _ _ R) as [(A & _)|[(A & _)|(A & _)]]; [left; exact A|right; exact A|contradiction].
  - destruct (plain c) as [x|] eqn:P.
    + destruct (plain_cases e fee net cfg c l l' r x P R) as [(A & _)|[(A & _)|(A & _)]]; [left; exact A|right; exact A|contradiction].
    + destruct c; cbn [options plain] in O, P; try discriminate O; try discriminate P. cbn [run_line] in R. left.
      destruct (cli_find_pdas e u wtp l) as [[[[w a] b] esc]|err]; injection R as <- _; reflexivity.
Qed.
Print Assumptions C65_all_or_fee.

(** ** What is signed *)
(** The message of a wrap: the instruction to wrap this amount, with the accounts the command line and the chain name. *)
Theorem C65_message_wrap : forall e net cfg source wtp n mint recipient utp o l m,
  message_of e net cfg (LineWrap source wtp n mint recipient utp o) l m ->
  let P := sg_key (cf_payer cfg) in let owner := sg_key (authority_or (cf_payer cfg) (so_authority o)) in
  exists r u p, let w := wrapped_mint_of e u wtp in
    m = compile e P (build_wrap tw_id r w (authority_of e w) p wtp source u (escrow_of e u p wtp) owner (map sg_key (so_multisig o)) n)
          (match so_blockhash o with Some h => h | None => nt_latest net end) /\
    (mint = Some u \/ mint = None /\ exists ts, a_data (l source) = DTok ts /\ t_mint ts = u) /\
    (utp = Some p \/ utp = None /\ a_owner (l source) = p) /\
    (recipient = Some r \/ recipient = None /\ r = ata_of e P w wtp).
Proof.
  intros e net cfg source wtp n mint recipient utp o l m M P owner. apply (message_of_iff e net cfg (LineWrap source wtp n mint recipient utp o) o l m eq_refl) in M. destruct M as (_ & i & Q & E). cbn [line_ix] in Q.
  apply wrap_instruction_inv in Q. destruct Q as (r & u & p & Q). cbv zeta in Q. destruct Q as (-> & A). exists r, u, p. cbv zeta. split; [exact E|exact A].
Qed.
Print Assumptions C65_message_wrap.
Theorem C65_message_unwrap : forall e net cfg source recipient n mint wtp utp o l m,
  message_of e net cfg (LineUnwrap source recipient n mint wtp utp o) l m ->
  let P := sg_key (cf_payer cfg) in let owner := sg_key (authority_or (cf_payer cfg) (so_authority o)) in
  exists u tr, let wp := a_owner (l source) in let p := a_owner (l u) in let w := wrapped_mint_of e u wp in
    m = compile e P (build_unwrap tw_id (escrow_of e u p wp) recipient (authority_of e w) u wp p source w owner (map sg_key (so_multisig o)) n)
          (match so_blockhash o with Some h => h | None => nt_latest net end) /\
    a_data (l recipient) = DTok tr /\ t_mint tr = u /\ given mint u /\ given wtp wp /\ given utp p.
Proof.
  intros e net cfg source recipient n mint wtp utp o l m M P owner. apply (message_of_iff e net cfg (LineUnwrap source recipient n mint wtp utp o) o l m eq_refl) in M. destruct M as (_ & i & Q & E). cbn [line_ix] in Q.
  apply unwrap_instruction_inv in Q. destruct Q as (u & tr & Q). cbv zeta in Q. destruct Q as (-> & A). exists u, tr. cbv zeta. split; [exact E|exact A].
Qed.
Print Assumptions C65_message_unwrap.
(** With the mint, its program and the block hash on the command line, a wrap signs the same message everywhere. *)
Theorem C65_same_message : forall e net cfg source wtp n u recipient p o l m net' cfg' o' l' h,
  so_blockhash o = Some h -> so_blockhash o' = Some h -> same_people cfg o cfg' o' ->
  message_of e net cfg (LineWrap source wtp n (Some u) recipient (Some p) o) l m ->
  message_of e net' cfg' (LineWrap source wtp n (Some u) recipient (Some p) o') l' m.
Proof.
  intros e net cfg source wtp n u recipient p o l m net' cfg' o' l' h B B' S M. apply (message_of_iff e net cfg (LineWrap source wtp n (Some u) recipient (Some p) o) o l m eq_refl) in M. destruct M as (G & i & Q & E).
  apply (message_of_iff e net' cfg' (LineWrap source wtp n (Some u) recipient (Some p) o') o' l' m eq_refl). split; [unfold hash_given, just_sign; cbn [so_blockhash]; rewrite B'; reflexivity|].
  exists i. split.
  - rewrite (line_ix_with e cfg cfg' (LineWrap source wtp n (Some u) recipient (Some p) o) o o' l eq_refl S) in Q. exact Q.
  - rewrite E. unfold hash_for. rewrite B, B'. destruct S as (-> & _). reflexivity.
Qed.
Print Assumptions C65_same_message.

(** ** Signatures *)
Lemma signers_known cfg o k : signs (the_signers cfg o) k = true -> knows cfg o k \/ In k (map fst (so_signatures o)).
Proof.
  intro S. destruct (signs_in _ _ S) as (s & Hs & K & V). unfold the_signers, tx_signers in Hs. apply in_app_or in Hs. destruct Hs as [[<-|[]]|Hs].
  - left. exists (cf_payer cfg). split; [left; reflexivity|split; [exact K|exact V]].
  - apply in_app_or in Hs. destruct Hs as [Hs|Hs].
    + destruct (_ && _); [|destruct Hs]. destruct Hs as [<-|[]]. left. exists (authority_or (cf_payer cfg) (so_authority o)). split; [|split; [exact K|exact V]].
      unfold seated, authority_or. destruct (so_authority o) as [a|]; [right; left; reflexivity|left; reflexivity].
    + apply in_app_or in Hs. destruct Hs as [Hs|Hs].
      * left. exists s. split; [right; apply in_or_app; right; exact Hs|split; [exact K|exact V]].
      * right. unfold pre in Hs. apply in_map_iff in Hs. destruct Hs as (q & <- & Hq). cbn [sg_key] in K. subst k. apply in_map. exact Hq.
Qed.
Lemma signers_endorsed e cfg o m k : all_fit e m o -> signs (the_signers cfg o) k = true -> endorsed cfg o m k.
Proof.
  intros F S. destruct (signers_known cfg o k S) as [K|K]; [left; exact K|right]. apply in_map_iff in K. destruct K as ([q g] & E & Hq). cbn [fst] in E. subst q.
  destruct (F _ Hq) as [_ G]. cbn [fst snd] in G. subst g. exact Hq.
Qed.
(** What a run prints is its own message, with genuine signatures over exactly this message, made with pairs it was given or
    handed to it. *)
Theorem C65_printed : forall e fee net cfg c o l l' m ss, options c = Some o ->
  run_line e fee net cfg c l = (l', Signed m ss) ->
  l' = l /\ so_sign_only o = true /\ message_of e net cfg c l m /\
  forall k g, In (k, g) ss -> g = SigOf k m /\ endorsed cfg o m k.
Proof.
  intros e fee net cfg c o l l' m ss O R. destruct (run_inv e fee net cfg c o l l' _ O R) as [(_ & err & X)|(i & Q & G & F)]; [discriminate X|].
  rewrite (run_fits e fee net cfg c o l i O Q G F) in R. destruct (so_sign_only o) eqn:S.
  - injection R as <- E <-. split; [reflexivity|]. split; [reflexivity|]. split.
    + apply (message_of_iff e net cfg c o l m O). split; [exact (hash_given_just o G)|]. exists i. split; [exact Q|symmetry; exact E].
    + rewrite E in F |- *. intros k g Hk. apply in_map_iff in Hk. destruct Hk as (q & X & Hq). injection X as <- <-. split; [reflexivity|].
      apply filter_In in Hq. destruct Hq as [_ Hq]. exact (signers_endorsed e cfg o m q F Hq).
  - unfold process_transaction in R. destruct (cf_dry_run cfg); [discriminate R|]. destruct (negb _); [discriminate R|]. destruct (send _ _ _ _) as [l1 [[]|err]]; discriminate R.
Qed.
Print Assumptions C65_printed.
(** A signature handed to a run is refused unless it signs the message of this very run. *)
Theorem C65_bound : forall e fee net cfg c o l k g, options c = Some o -> In (k, g) (so_signatures o) ->
  (exists err, run_line e fee net cfg c l = (l, Rejected err)) \/ exists m, message_of e net cfg c l m /\ g = SigOf k m.
Proof.
  intros e fee net cfg c o l k g O H. destruct (run_line e fee net cfg c l) as [l' r] eqn:R. destruct (run_inv e fee net cfg c o l l' r O R) as [(-> & err & ->)|(i & Q & G & F)].
  - left. exists err. reflexivity.
  - right. eexists. split; [apply (message_of_iff e net cfg c o l _ O); split; [exact (hash_given_just o G)|exists i; split; [exact Q|reflexivity]]|]. exact (proj2 (F _ H)).
Qed.
Print Assumptions C65_bound.
(** A confirmed transaction carried the run's own message under a block hash that still counts, and everybody it asks for
    had signed it: with a pair that was there or a signature over this message. *)
Theorem C65_confirmed : forall e fee net cfg c o l l', options c = Some o -> run_line e fee net cfg c l = (l', Confirmed) ->
  cf_dry_run cfg = false /\ so_sign_only o = false /\
  exists m ks, message_of e net cfg c l m /\ nt_recent net (mg_hash m) = true /\
    accepted e fee (mkTx (mg_payer m) [TxTokenWrap (mg_ix m)] ks) l l' /\
    forall k, k = mg_payer m \/ signed (tx_metas (mg_ix m)) k -> endorsed cfg o m k.
Proof.
  intros e fee net cfg c o l l' O R. destruct (run_inv e fee net cfg c o l l' _ O R) as [(_ & err & X)|(i & Q & G & F)]; [discriminate X|].
  rewrite (run_fits e fee net cfg c o l i O Q G F) in R. destruct (so_sign_only o); [discriminate R|].
  destruct (process_cases _ _ _ _ _ _ _ _ _ R) as [(_ & A)|[(_ & A)|(_ & D & N & A)]]; [exfalso; apply A; reflexivity|exfalso; apply A; reflexivity|].
  split; [exact D|]. split; [reflexivity|].
  set (m := compile e (sg_key (cf_payer cfg)) i (hash_for net o)) in *. exists m, (filter (signs (the_signers cfg o)) (slots e m)).
  split; [apply (message_of_iff e net cfg c o l m O); split; [exact (hash_given_just o G)|exists i; split; [exact Q|reflexivity]]|]. split; [exact N|]. split; [exact A|].
  intros k Hk. apply (one_signs e) in Hk. pose proof (send_cases _ _ _ _ _ _ A) as [(_ & err & X)|(_ & _ & _ & S & _)]; [discriminate X|]. specialize (S k Hk). cbn [tr_signed] in S.
  apply filter_In in S. destruct S as [_ S]. exact (signers_endorsed e cfg o m k F S).
Qed.
Print Assumptions C65_confirmed.
(** For the other commands: the payer's pair is there. *)
Theorem C65_plain_confirmed : forall e fee net cfg c x l l', plain c = Some x ->
  (run_line e fee net cfg c l = (l', Confirmed) <->
   cf_dry_run cfg = false /\ sg_signs (cf_payer cfg) = true /\ nt_recent net (nt_latest net) = true /\
   exists t, transaction_of e (sg_key (cf_payer cfg)) x l = Ok (Some t) /\ accepted e fee t l l').
Proof.
  intros e fee net cfg c x l l' P. split.
  - intro R. destruct (plain_cases e fee net cfg c l l' Confirmed x P R) as [(_ & A)|[(_ & A)|(_ & D & N & t & T & A)]]; [exfalso; apply A; reflexivity|exfalso; apply A; reflexivity|].
    destruct (sg_signs (cf_payer cfg)) eqn:S; [split; [exact D|]; split; [reflexivity|]; split; [exact N|]; exists t; split; [exact T|exact A]|].
    exfalso. pose proof (send_cases _ _ _ _ _ _ A) as [(_ & err & X)|(_ & _ & _ & X & _)]; [discriminate X|]. cbn [tr_payer tr_ixs tr_signed] in X. apply (X (tr_payer t)).
    unfold must_sign. rewrite pk_eqb_refl. reflexivity.
  - intros (D & S & N & t & T & A). destruct (run_plain e fee net cfg c x l P) as (strict & ->). unfold process_plain. rewrite T, S. unfold process_transaction. rewrite D, N. cbn [negb].
    unfold accepted in A. rewrite A. reflexivity.
Qed.
Print Assumptions C65_plain_confirmed.

(** ** A run that sends is the command of C42 and C43 *)
Lemma send_compiled e fee P i s s' l : (forall k, must_sign e P [TxTokenWrap i] k = true -> (In k s <-> In k s')) ->
  send e fee (mkTx P [TxTokenWrap (as_compiled e P i)] s) l = send e fee (mkTx P [TxTokenWrap i] s') l.
Proof.
  intro S. unfold send. cbn [tr_payer tr_ixs tr_signed]. cbv zeta.
  assert (C : forallb (fun k => negb (must_sign e P [TxTokenWrap (as_compiled e P i)] k) || pk_mem k s) (all_keys e P [TxTokenWrap (as_compiled e P i)])
            = forallb (fun k => negb (must_sign e P [TxTokenWrap i] k) || pk_mem k s') (all_keys e P [TxTokenWrap i])).
  { apply Bool.eq_iff_eq_true. rewrite (signatures_cover e (mkTx P [TxTokenWrap (as_compiled e P i)] s)), (signatures_cover e (mkTx P [TxTokenWrap i] s')). cbn [tr_payer tr_ixs tr_signed].
    split; intros H k Hk.
    - apply (S k Hk). apply H. unfold as_compiled. rewrite raised_signs. exact Hk.
    - unfold as_compiled in Hk. rewrite raised_signs in Hk. apply (S k Hk). exact (H k Hk). }
  rewrite C. destruct (negb (forallb _ _)); [reflexivity|]. destruct (negb (_ && _)); [reflexivity|].
  cbn [run_ixs run_ix]. rewrite raised_twice. cbn [as_compiled tx_prog tx_data].
  destruct (process_instruction e (mkCtx (tx_prog i) (raised e P [TxTokenWrap i] (tx_metas i))) (tx_data i) (charge P fee l)) as [l2|err]; [|reflexivity]. cbn [bind].
  assert (R : rents_ok e P [TxTokenWrap (as_compiled e P i)] (charge P fee l) l2 = rents_ok e P [TxTokenWrap i] (charge P fee l) l2).
  { unfold rents_ok. assert (K : all_keys e P [TxTokenWrap (as_compiled e P i)] = all_keys e P [TxTokenWrap i]) by (unfold all_keys, as_compiled; cbn [flat_map ix_accounts tx_metas]; rewrite raised_keys; reflexivity).
    rewrite K. apply forallb_ext_in'. intro k. unfold as_compiled. rewrite raised_writes. reflexivity. }
  rewrite R. reflexivity.
Qed.
Definition wrap_args_of (source wtp : pubkey) (n : N) (mint recipient utp : option pubkey) (o : signing) : wrap_args :=
  mkWrapArgs source wtp n (so_authority o) mint recipient utp (so_multisig o) (pre (so_signatures o)).
Definition unwrap_args_of (source recipient : pubkey) (n : N) (mint wtp utp : option pubkey) (o : signing) : unwrap_args :=
  mkUnwrapArgs source recipient n (so_authority o) mint wtp utp (so_multisig o) (pre (so_signatures o)).
(** The transaction Cli.v builds from the same arguments. *)
Definition line_tx (e : env) (P : pubkey) (c : command_line) (l : ledger) : res transaction :=
  match c with
  | LineWrap source wtp n mint recipient utp o => cli_wrap e P (wrap_args_of source wtp n mint recipient utp o) l
  | LineUnwrap source recipient n mint wtp utp o => cli_unwrap e P (unwrap_args_of source recipient n mint wtp utp o) l
  | _ => Err EPanic
  end.
Lemma bind_assoc {A B C} (x : res A) (f : A -> res B) (g : B -> res C) : (y <- (z <- x ;; f z) ;; g y) = (z <- x ;; y <- f z ;; g y).
Proof. destruct x; reflexivity. Qed.
Lemma bind_ext {A B} (x : res A) (f g : A -> res B) : (forall a, f a = g a) -> bind x f = bind x g.
Proof. intro H. destruct x; [exact (H a)|reflexivity]. Qed.
Lemma acting_key p a : sg_key (acting (sg_key p) a) = sg_key (authority_or p a).
Proof. destruct a; reflexivity. Qed.
Lemma line_tx_eq e cfg c o l : options c = Some o ->
  line_tx e (sg_key (cf_payer cfg)) c l =
    (i <- line_ix e cfg c l ;; partial_sign e (sg_key (cf_payer cfg)) [TxTokenWrap i]
       (tx_signers (mkSigner (sg_key (cf_payer cfg)) true) (acting (sg_key (cf_payer cfg)) (so_authority o)) (so_multisig o) (pre (so_signatures o)))).
Proof.
  intro O. destruct c; cbn [options] in O; try discriminate O; injection O as ->; cbn [line_tx line_ix].
  - unfold cli_wrap, wrap_instruction, wrap_args_of. cbn [wa_source wa_wtp wa_amount wa_authority wa_mint wa_recipient wa_utp wa_multisig wa_presigners].
    rewrite <- acting_key. do 8 (rewrite bind_assoc; apply bind_ext; intro). reflexivity.
  - unfold cli_unwrap, unwrap_instruction, unwrap_args_of. cbn [ua_source ua_recipient ua_amount ua_authority ua_mint ua_wtp ua_utp ua_multisig ua_presigners].
    rewrite <- acting_key. do 11 (rewrite bind_assoc; apply bind_ext; intro). reflexivity.
Qed.
(** Who counts as having signed does not depend on how the default authority is written. *)
Lemma signs_app a b k : signs (a ++ b) k = fold_left (fun acc s => if pk_eqb (sg_key s) k then sg_signs s else acc) b (signs a k).
Proof. unfold signs. apply fold_left_app. Qed.
Lemma the_signers_eq cfg o k : sg_signs (cf_payer cfg) = true \/ In (sg_key (cf_payer cfg)) (map fst (so_signatures o)) ->
  signs (the_signers cfg o) k =
  signs (tx_signers (mkSigner (sg_key (cf_payer cfg)) true) (acting (sg_key (cf_payer cfg)) (so_authority o)) (so_multisig o) (pre (so_signatures o))) k.
Proof.
  intro H. assert (E : forall p p' : signer, sg_key p = sg_key p' ->
      (sg_signs p = sg_signs p' \/ In (sg_key p) (map fst (so_signatures o))) -> forall a a', sg_key a = sg_key a' -> (pk_eqb (sg_key p) (sg_key a) = false -> a = a') ->
      signs (tx_signers p a (so_multisig o) (pre (so_signatures o))) k = signs (tx_signers p' a' (so_multisig o) (pre (so_signatures o))) k).
  { intros p p' K V a a' Ka Ea. unfold tx_signers. rewrite <- K, <- Ka.
    assert (T : (if negb (pk_eqb (sg_key p) (sg_key a)) && is_nil (so_multisig o) then [a] else []) = (if negb (pk_eqb (sg_key p) (sg_key a)) && is_nil (so_multisig o) then [a'] else [])).
    { destruct (pk_eqb (sg_key p) (sg_key a)); [reflexivity|]. rewrite (Ea eq_refl). reflexivity. }
    rewrite T. destruct V as [V|V].
    - assert (p = p') by (destruct p, p'; cbn in *; congruence). subst p'. reflexivity.
    - destruct (pk_eqb (sg_key p) k) eqn:Q.
      + apply pk_eqb_eq in Q. subst k. rewrite !app_assoc.
        assert (B : exists s, In s (pre (so_signatures o)) /\ sg_key s = sg_key p).
        { apply in_map_iff in V. destruct V as (q & V & Hq). exists (mkSigner (fst q) true). split; [unfold pre; apply in_map_iff; exists q; split; [reflexivity|exact Hq]|exact V]. }
        assert (W : forall s, In s (pre (so_signatures o)) -> sg_key s = sg_key p -> sg_signs s = true).
        { intros s Hs _. unfold pre in Hs. apply in_map_iff in Hs. destruct Hs as (q & <- & _). reflexivity. }
        rewrite (signs_later (sg_key p) _ _ B W), (signs_later (sg_key p) _ _ B W). reflexivity.
      + unfold signs. cbn [app fold_left]. rewrite <- K, Q. reflexivity. }
  unfold the_signers. apply E.
  - reflexivity.
  - cbn [sg_signs]. destruct H as [H|H]; [left; exact H|right; exact H].
  - symmetry. apply acting_key.
  - destruct (so_authority o) as [a|]; cbn [authority_or acting]; [reflexivity|]. rewrite pk_eqb_refl. discriminate.
Qed.
Lemma the_signers_key cfg o k : signs (the_signers cfg o) k = true -> In k (map sg_key (the_signers cfg o)).
Proof. intro H. destruct (signs_in _ _ H) as (s & Hs & <- & _). apply in_map. exact Hs. Qed.
Theorem C65_sent : forall e fee net cfg c o l l', options c = Some o ->
  cf_dry_run cfg = false -> so_sign_only o = false ->
  (sg_signs (cf_payer cfg) = true \/ In (sg_key (cf_payer cfg)) (map fst (so_signatures o))) ->
  (run_line e fee net cfg c l = (l', Confirmed) <->
   hash_given o = true /\ exists t m, line_tx e (sg_key (cf_payer cfg)) c l = Ok t /\ accepted e fee t l l' /\
     message_of e net cfg c l m /\ nt_recent net (mg_hash m) = true /\ forall q, In q (so_signatures o) -> snd q = SigOf (fst q) m).
Proof.
  intros e fee net cfg c o l l' O D S Pay. set (P := sg_key (cf_payer cfg)) in *.
  set (sg := tx_signers (mkSigner P true) (acting P (so_authority o)) (so_multisig o) (pre (so_signatures o))).
  assert (Same : forall i h, line_ix e cfg c l = Ok i -> forall k, must_sign e P [TxTokenWrap i] k = true ->
            (In k (filter (signs (the_signers cfg o)) (slots e (compile e P i h))) <-> In k (filter (signs sg) (map sg_key sg)))).
  { intros i h Q k Hk. rewrite !filter_In. assert (Eq : signs (the_signers cfg o) k = signs sg k) by exact (the_signers_eq cfg o k Pay). rewrite Eq. split.
    - intros [_ V]. split; [|exact V]. destruct (signs_in _ _ V) as (s & Hs & <- & _). apply in_map. exact Hs.
    - intros [_ V]. split; [|exact V]. apply slots_signs. exact Hk. }
  split.
  - intro R. destruct (run_inv e fee net cfg c o l l' _ O R) as [(_ & err & X)|(i & Q & G & F)]; [discriminate X|]. split; [exact G|].
    rewrite (run_fits e fee net cfg c o l i O Q G F) in R. rewrite S in R. fold P in R, F.
    destruct (process_cases _ _ _ _ _ _ _ _ _ R) as [(_ & A)|[(_ & A)|(_ & _ & N & A)]]; [exfalso; apply A; reflexivity|exfalso; apply A; reflexivity|].
    exists (mkTx P [TxTokenWrap i] (filter (signs sg) (map sg_key sg))), (compile e P i (hash_for net o)). split; [|split; [|split; [|split; [exact N|]]]].
    + unfold P at 1. rewrite (line_tx_eq e cfg c o l O), Q. cbn [bind]. fold P. fold sg. unfold partial_sign. rewrite bind_guard_true; [reflexivity|].
      apply forallb_forall. intros s Hs. apply (slots_signs e P i (hash_for net o)). destruct (line_ix_nine e cfg c o l i O Q) as (ms & N9 & U & _).
      unfold sg, tx_signers in Hs. rewrite !app_assoc in Hs. apply in_app_or in Hs. destruct Hs as [Hs|Hs].
      * apply (slots_asked e P i _ ms _ _ _ N9 U). assert (X : In s (tx_signers (mkSigner P true) (acting P (so_authority o)) (so_multisig o) [])) by (unfold tx_signers; rewrite app_nil_r, !app_assoc; exact Hs).
        apply asked_named in X. cbn [sg_key] in X. unfold P in X. rewrite (acting_key (cf_payer cfg)) in X. exact X.
      * unfold pre in Hs. apply in_map_iff in Hs. destruct Hs as (q & <- & Hq). cbn [sg_key]. exact (proj1 (F q Hq)).
    + unfold accepted in *. rewrite <- (send_compiled e fee P i _ _ l (Same i (hash_for net o) Q)). exact A.
    + apply (message_of_iff e net cfg c o l _ O). split; [exact (hash_given_just o G)|]. exists i. split; [exact Q|reflexivity].
    + intros q Hq. exact (proj2 (F q Hq)).
  - intros (G & t & m & T & A & M & N & F). apply (message_of_iff e net cfg c o l m O) in M. destruct M as (_ & i & Q & ->). fold P in N, F.
    unfold P in T. rewrite (line_tx_eq e cfg c o l O), Q in T. cbn [bind] in T. fold P in T. fold sg in T.
    pose proof (partial_sign_inv _ _ _ _ _ T) as (T1 & T2 & T3 & _).
    assert (Ts : t = mkTx P [TxTokenWrap i] (filter (signs sg) (map sg_key sg))).
    { unfold partial_sign in T. destruct (forallb _ sg); cbn [guard bind] in T; [injection T as <-; reflexivity|discriminate T]. }
    assert (Ft : all_fit e (compile e P i (hash_for net o)) o).
    { intros q Hq. split; [|exact (F q Hq)]. apply slots_signs. apply (T3 (mkSigner (fst q) true)). unfold sg, tx_signers. do 3 (apply in_or_app; right). unfold pre. apply in_map_iff. exists q. split; [reflexivity|exact Hq]. }
    rewrite (run_fits e fee net cfg c o l i O Q G Ft), S, D. unfold process_transaction. fold P. cbn [compile mg_hash] in N. rewrite N. cbn [negb].
    rewrite (send_compiled e fee P i _ _ l (Same i (hash_for net o) Q)), <- Ts. unfold accepted in A. rewrite A. reflexivity.
Qed.
Print Assumptions C65_sent.

(** ** Trying out *)
(** "Simulation succeeded" says that the command could be put together and signed, and nothing more: what the chain makes
    of the transaction does not enter. *)
Theorem C65_dry_run : forall e fee net cfg c o l, options c = Some o -> cf_dry_run cfg = true -> so_sign_only o = false ->
  (run_line e fee net cfg c l = (l, Simulated) <->
   hash_given o = true /\ exists m, message_of e net cfg c l m /\
     forall q, In q (so_signatures o) -> snd q = SigOf (fst q) m /\ (fst q = mg_payer m \/ signed (tx_metas (mg_ix m)) (fst q))).
Proof.
  intros e fee net cfg c o l O D S. assert (K : forall m k, In k (slots e m) <-> k = mg_payer m \/ signed (tx_metas (mg_ix m)) k) by (intros m k; rewrite (proj2 (slots_ok e m) k); apply one_signs).
  split.
  - intro R. destruct (run_inv e fee net cfg c o l l _ O R) as [(_ & err & X)|(i & Q & G & F)]; [discriminate X|]. split; [exact G|]. eexists. split.
    + apply (message_of_iff e net cfg c o l _ O). split; [exact (hash_given_just o G)|]. exists i. split; [exact Q|reflexivity].
    + intros q Hq. destruct (F q Hq) as [A B]. split; [exact B|]. apply K. exact A.
  - intros (G & m & M & F). apply (message_of_iff e net cfg c o l m O) in M. destruct M as (_ & i & Q & ->).
    rewrite (run_fits e fee net cfg c o l i O Q G), S, D; [reflexivity|]. intros q Hq. destruct (F q Hq) as [A B]. split; [apply K; exact B|exact A].
Qed.
Print Assumptions C65_dry_run.

(** ** Signing offline *)
Lemma knows_signs e net cfg c o l m k : options c = Some o -> tidy cfg c -> message_of e net cfg c l m -> In k (slots e m) ->
  (signs (the_signers cfg o) k = true <-> knows cfg o k \/ In k (map fst (so_signatures o))).
Proof.
  intros O T M Hk. split; [apply signers_known|]. intro H.
  assert (Pre : forall s, In s (pre (so_signatures o)) -> sg_signs s = true).
  { intros s Hs. unfold pre in Hs. apply in_map_iff in Hs. destruct Hs as (q & <- & _). reflexivity. }
  destruct H as [(s0 & Hs0 & K0 & V0)|H].
  - apply signs_all.
    + apply (message_of_iff e net cfg c o l m O) in M. destruct M as (_ & i & Q & ->). destruct (line_ix_nine e cfg c o l i O Q) as (ms & N9 & U & _).
      apply (slots_asked e _ i _ ms _ _ _ N9 U) in Hk. unfold asked in Hk. unfold the_signers, tx_signers.
      destruct Hk as [Hk|Hk]; [exists (cf_payer cfg); split; [left; reflexivity|exact Hk]|].
      destruct (so_multisig o) as [|x r] eqn:Em.
      * cbn [map In] in Hk. destruct Hk as [Hk|[]]. destruct (pk_eqb (sg_key (cf_payer cfg)) (sg_key (authority_or (cf_payer cfg) (so_authority o)))) eqn:E.
        -- apply pk_eqb_eq in E. exists (cf_payer cfg). split; [left; reflexivity|rewrite E; exact Hk].
        -- exists (authority_or (cf_payer cfg) (so_authority o)). split; [right; left; reflexivity|exact Hk].
      * cbn [map] in Hk. change (In k (map sg_key (x :: r))) in Hk. apply in_map_iff in Hk. destruct Hk as (s & E & Hs). exists s. split; [|exact E].
        apply in_or_app. right. apply in_or_app. right. apply in_or_app. left. exact Hs.
    + intros s Hs Ks. unfold the_signers, tx_signers in Hs. rewrite !app_assoc in Hs. apply in_app_or in Hs. destruct Hs as [Hs|Hs]; [|exact (Pre s Hs)].
      rewrite <- V0. apply (T o O); [|exact Hs0|rewrite Ks, K0; reflexivity]. apply in_app_or in Hs. destruct Hs as [Hs|Hs]; [|right; apply in_or_app; right; exact Hs].
      destruct Hs as [<-|Hs]; [left; reflexivity|]. destruct (_ && _); [|destruct Hs]. destruct Hs as [<-|[]].
      unfold seated, authority_or. destruct (so_authority o) as [a|]; [right; left; reflexivity|left; reflexivity].
  - unfold the_signers, tx_signers. rewrite !app_assoc. apply signs_later.
    + apply in_map_iff in H. destruct H as (q & E & Hq). exists (mkSigner (fst q) true). split; [unfold pre; apply in_map_iff; exists q; split; [reflexivity|exact Hq]|exact E].
    + intros s Hs _. exact (Pre s Hs).
Qed.
(** What a tidy participant prints: the signatures of exactly the keys asked for whose pair he has or whose signature he
    was given. *)
Theorem C65_prints : forall e fee p m o, printed e fee p m -> options (pt_line p) = Some o -> tidy (pt_cfg p) (pt_line p) ->
  forall k g, In (k, g) (pt_printed p) <->
    g = SigOf k m /\ (k = mg_payer m \/ signed (tx_metas (mg_ix m)) k) /\ endorsed (pt_cfg p) o m k.
Proof.
  intros e fee p m o R O T k g. unfold printed in R. destruct (run_line e fee (pt_net p) (pt_cfg p) (pt_line p) (pt_ledger p)) as [l' r] eqn:E. cbn [snd] in R. subst r.
  destruct (C65_printed e fee _ _ _ o _ _ _ _ O E) as (_ & S & M & _). destruct (run_inv _ _ _ _ _ o _ _ _ O E) as [(_ & err & X)|(i & Q & G & F)]; [discriminate X|].
  rewrite (run_fits _ _ _ _ _ o _ i O Q G F), S in E. injection E as _ Em Ess. rewrite Em in F, Ess.
  rewrite <- (one_signs e), <- (proj2 (slots_ok e m) k), <- Ess, in_map_iff. split.
  - intros (q & X & Hq). injection X as <- <-. apply filter_In in Hq. destruct Hq as [H1 H2]. split; [reflexivity|]. split; [exact H1|exact (signers_endorsed e _ o m q F H2)].
  - intros (-> & H1 & H2). exists k. split; [reflexivity|]. apply filter_In. split; [exact H1|]. apply (knows_signs e _ _ _ o _ m k O T M H1).
    destruct H2 as [H2|H2]; [left; exact H2|right]. apply in_map_iff. exists (k, SigOf k m). split; [reflexivity|exact H2].
Qed.
Print Assumptions C65_prints.
Lemma collected e fee m parts : (forall p, In p parts -> printed e fee p m /\ tidy (pt_cfg p) (pt_line p)) ->
  forall k g, In (k, g) (flat_map pt_printed parts) <-> g = SigOf k m /\ In k (slots e m) /\ exists p q, In p parts /\ options (pt_line p) = Some q /\ endorsed (pt_cfg p) q m k.
Proof.
  intros Pa k g. rewrite in_flat_map. split.
    - intros (p & Hp & Hg). destruct (Pa p Hp) as [Pp Tp]. destruct (options (pt_line p)) as [q|] eqn:Oq.
      + apply (C65_prints e fee p m q Pp Oq Tp) in Hg. destruct Hg as (A & B & C). split; [exact A|]. split; [apply (proj2 (slots_ok e m) k); apply one_signs; exact B|]. exists p, q. split; [exact Hp|split; [exact Oq|exact C]].
      + exfalso. unfold printed in Pp. revert Pp Oq. clear. destruct p as [n g [] l s]; cbn [pt_net pt_cfg pt_line pt_ledger pt_printed options]; intros Pp Oq; try discriminate Oq; clear Oq.
        all: cbn [run_line] in Pp. 6:{ destruct (cli_find_pdas e u wtp l) as [[[[w a] b] esc]|err]; discriminate Pp. }
        all: match type of Pp with snd (process_plain _ _ _ _ _ ?r _) = _ => destruct r as [[t|]|err]; unfold process_plain in Pp end; try discriminate Pp.
        all: destruct (sg_signs (cf_payer g)); try discriminate Pp; unfold process_transaction in Pp; destruct (cf_dry_run g); try discriminate Pp; destruct (negb _); try discriminate Pp; destruct (send _ _ _ _) as [l1 [[]|err]]; discriminate Pp.
    - intros (-> & Hk & p & q & Hp & Oq & En). exists p. split; [exact Hp|]. destruct (Pa p Hp) as [Pp Tp]. apply (C65_prints e fee p m q Pp Oq Tp). split; [reflexivity|]. split; [|exact En].
      apply (one_signs e). apply (proj2 (slots_ok e m) k). exact Hk.
Qed.
(** Everybody signs on his own machine, prints, and one sends with all that was printed: the same as if all key pairs had
    been on one machine. *)
Theorem C65_offline : forall e fee net cfg c o l m parts cfg1 o1,
  options c = Some o -> tidy cfg c -> message_of e net cfg c l m ->
  (forall p, In p parts -> printed e fee p m /\ tidy (pt_cfg p) (pt_line p)) ->
  so_signatures o = flat_map pt_printed parts -> hash_given o = true ->
  same_people cfg o cfg1 o1 -> cf_dry_run cfg1 = cf_dry_run cfg -> so_blockhash o1 = so_blockhash o -> so_sign_only o1 = so_sign_only o ->
  so_signatures o1 = [] -> tidy cfg1 (with_options o1 c) ->
  (forall k, knows cfg1 o1 k <-> knows cfg o k \/ exists p q, In p parts /\ options (pt_line p) = Some q /\ endorsed (pt_cfg p) q m k) ->
  run_line e fee net cfg c l = run_line e fee net cfg1 (with_options o1 c) l.
Proof.
  intros e fee net cfg c o l m parts cfg1 o1 O T M Pa Sg G Sp Dr Bh So S1 T1 K.
  pose proof (options_with o o1 c O) as O1. pose proof M as M0. apply (message_of_iff e net cfg c o l m O) in M0. destruct M0 as (G0 & i & Q & Em).
  assert (Q1 : line_ix e cfg1 (with_options o1 c) l = Ok i) by (rewrite <- (line_ix_with e cfg cfg1 c o o1 l O Sp); exact Q).
  assert (Hh : hash_for net o1 = hash_for net o) by (unfold hash_for; rewrite Bh; reflexivity).
  assert (Ms : is_nil (so_multisig o1) = is_nil (so_multisig o)).
  { destruct Sp as (_ & _ & Sp). destruct (so_multisig o), (so_multisig o1); cbn [map] in Sp; try reflexivity; discriminate Sp. }
  assert (G1 : hash_given o1 = true).
  { unfold hash_given in *. rewrite Bh, S1, Ms. destruct (so_blockhash o); [reflexivity|]. cbn [is_nil]. destruct (is_nil (so_multisig o)); [reflexivity|discriminate G]. }
  pose proof Sp as (Pk & _). assert (Em1 : compile e (sg_key (cf_payer cfg1)) i (hash_for net o1) = m) by (rewrite Hh, <- Pk; symmetry; exact Em).
  assert (M1 : message_of e net cfg1 (with_options o1 c) l m).
  { apply (message_of_iff e net cfg1 _ o1 l m O1). split; [exact (hash_given_just o1 G1)|]. exists i. split; [exact Q1|symmetry; exact Em1]. }
  assert (Pr : forall k g, In (k, g) (so_signatures o) <-> g = SigOf k m /\ In k (slots e m) /\ exists p q, In p parts /\ options (pt_line p) = Some q /\ endorsed (pt_cfg p) q m k) by (rewrite Sg; exact (collected e fee m parts Pa)).
  assert (F : all_fit e m o).
  { intros [k g] Hq. apply Pr in Hq. destruct Hq as (A & B & _). split; [exact B|exact A]. }
  assert (F1 : all_fit e m o1) by (rewrite <- Em1; intros q Hq; rewrite S1 in Hq; destruct Hq).
  assert (Fm : all_fit e (compile e (sg_key (cf_payer cfg)) i (hash_for net o)) o) by (rewrite <- Em; exact F).
  assert (Fm1 : all_fit e (compile e (sg_key (cf_payer cfg1)) i (hash_for net o1)) o1) by (rewrite Em1; exact F1).
  rewrite (run_fits e fee net cfg c o l i O Q G Fm), (run_fits e fee net cfg1 _ o1 l i O1 Q1 G1 Fm1).
  rewrite Em1, <- Em, So, Dr, Hh, <- Pk.
  assert (Ks : filter (signs (the_signers cfg1 o1)) (slots e m) = filter (signs (the_signers cfg o)) (slots e m)).
  { apply filter_ext_in. intros k Hk. apply Bool.eq_iff_eq_true. rewrite (knows_signs e net cfg1 _ o1 l m k O1 T1 M1 Hk), (knows_signs e net cfg c o l m k O T M Hk), S1, K. cbn [map In]. split.
    - intros [[A|A]|[]]; [left; exact A|right]. apply in_map_iff. exists (k, SigOf k m). split; [reflexivity|]. apply Pr. split; [reflexivity|]. split; [exact Hk|exact A].
    - intros [A|A]; left; [left; exact A|right]. apply in_map_iff in A. destruct A as ([q g] & E & A). cbn [fst] in E. subst q. apply Pr in A. destruct A as (_ & _ & A). exact A. }
  rewrite Ks. reflexivity.
Qed.
Print Assumptions C65_offline.

(** So a team with everybody's consent wraps and unwraps (C42, C43). *)
Lemma team_all_sign e fee net cfg c o l m parts owner members : options c = Some o -> tidy cfg c -> message_of e net cfg c l m ->
  (forall p, In p parts -> printed e fee p m /\ tidy (pt_cfg p) (pt_line p)) -> so_signatures o = flat_map pt_printed parts ->
  sg_key (authority_or (cf_payer cfg) (so_authority o)) = owner -> map sg_key (so_multisig o) = members ->
  (forall k, In k (asked (sg_key (cf_payer cfg)) owner members) -> knows cfg o k \/ exists p q, In p parts /\ options (pt_line p) = Some q /\ endorsed (pt_cfg p) q m k) ->
  all_sign (sg_key (cf_payer cfg)) (acting (sg_key (cf_payer cfg)) (so_authority o)) (so_multisig o) (pre (so_signatures o)) /\
  (sg_signs (cf_payer cfg) = true \/ In (sg_key (cf_payer cfg)) (map fst (so_signatures o))) /\
  forall q, In q (so_signatures o) -> snd q = SigOf (fst q) m.
Proof.
  intros O T M Pa Sg Ow Me A. set (P := sg_key (cf_payer cfg)) in *. pose proof M as M0. apply (message_of_iff e net cfg c o l m O) in M0. destruct M0 as (_ & i & Q & Em).
  destruct (line_ix_nine e cfg c o l i O Q) as (ms & N9 & U & _).
  assert (Sl : forall k, In k (slots e m) <-> In k (asked P owner members)).
  { intro k. rewrite Em. rewrite (slots_asked e _ i _ ms _ _ k N9 U), Ow, Me. reflexivity. }
  pose proof (collected e fee m parts Pa) as Pr. rewrite <- Sg in Pr.
  assert (B : forall k, In k (asked P owner members) -> (exists p q, In p parts /\ options (pt_line p) = Some q /\ endorsed (pt_cfg p) q m k) -> In k (map fst (so_signatures o))).
  { intros k Hk X. apply in_map_iff. exists (k, SigOf k m). split; [reflexivity|]. apply Pr. split; [reflexivity|]. split; [apply Sl; exact Hk|exact X]. }
  assert (Kn : forall k s, knows cfg o k -> In s (seated cfg o) -> sg_key s = k -> sg_signs s = true).
  { intros k s (s0 & H0 & K0 & V0) Hs Ks. rewrite <- V0. apply (T o O); [exact Hs|exact H0|rewrite Ks, K0; reflexivity]. }
  split; [split|split].
  - intros s Hs. unfold pre in Hs. apply in_map_iff in Hs. destruct Hs as ([k g] & <- & Hq). cbn [fst sg_key sg_signs]. split; [|reflexivity].
    apply Pr in Hq. destruct Hq as (_ & Hq & _). apply Sl in Hq. unfold P. rewrite (acting_key (cf_payer cfg)). fold P. rewrite Ow, Me. exact Hq.
  - intros k Hk. unfold P in Hk. rewrite (acting_key (cf_payer cfg)) in Hk. fold P in Hk. rewrite Ow, Me in Hk. destruct (A k Hk) as [X|X].
    + right. intros s Hs Ks. destruct (so_multisig o) as [|x r] eqn:Eo.
      * destruct Hs as [<-|[]]. unfold acting in Ks |- *. destruct (so_authority o) as [a|] eqn:Ea; [|reflexivity]. apply (Kn k a X); [|exact Ks]. unfold seated. rewrite Ea. right; left; reflexivity.
      * apply (Kn k s X); [|exact Ks]. unfold seated. rewrite Eo. right. apply in_or_app. right. exact Hs.
    + left. apply (B k Hk) in X. apply in_map_iff in X. destruct X as (q & E & Hq). exists (mkSigner (fst q) true). split; [unfold pre; apply in_map_iff; exists q; split; [reflexivity|exact Hq]|exact E].
  - assert (HP : In P (asked P owner members)) by (left; reflexivity). destruct (A P HP) as [X|X]; [left|right; exact (B P HP X)]. apply (Kn P (cf_payer cfg) X); [left; reflexivity|reflexivity].
  - intros [k g] Hq. cbn [fst snd]. apply Pr in Hq. exact (proj1 Hq).
Qed.
Theorem C65_team_wraps : forall e0 e past l net cfg o parts m h fee source recipient wtp n mint rec utp' u utp owner members mu mw ts te tr,
  let payer := sg_key (cf_payer cfg) in let c := LineWrap source wtp n mint rec utp' o in
  (* the command line *)
  given mint u -> given utp' utp ->
  (rec = Some recipient \/ rec = None /\ recipient = ata_of e payer (wrapped_mint_of e u wtp) wtp /\ derivable e (ata_seeds payer (wrapped_mint_of e u wtp) wtp) ata_id) ->
  sg_key (authority_or (cf_payer cfg) (so_authority o)) = owner -> map sg_key (so_multisig o) = members ->
  cf_dry_run cfg = false -> so_sign_only o = false -> so_blockhash o = Some h -> nt_recent net h = true ->
  (* everybody has signed this message, here or elsewhere *)
  tidy cfg c -> message_of e net cfg c l m -> (forall p, In p parts -> printed e fee p m /\ tidy (pt_cfg p) (pt_line p)) -> so_signatures o = flat_map pt_printed parts ->
  (forall k, In k (asked payer owner members) -> knows cfg o k \/ exists p q, In p parts /\ options (pt_line p) = Some q /\ endorsed (pt_cfg p) q m k) ->
  (* the situation of C42 *)
  history e0 past l -> same_curve e0 e -> spl_or_t22 wtp -> spl_or_t22 utp ->
  let w := wrapped_mint_of e u wtp in let a := authority_of e w in let esc := escrow_of e u utp wtp in
  derivable e (wrapped_mint_seeds u wtp) tw_id -> derivable e (wrapped_mint_authority_seeds w) tw_id -> derivable e (ata_seeds a u utp) ata_id ->
  may_act l utp owner members -> helper_appends e l owner members ->
  (forall x, a_data (l owner) = DMultisig x -> a_owner (l owner) = utp) ->
  wallet l payer -> fee + e_rent e 0 <= lamports l payer ->
  holder l utp u source owner ts -> open_account l source -> 0 < lamports l source -> 0 < n -> n <= t_amount ts -> n < two64 -> source <> esc ->
  transferable l utp u mu ->
  token_account l esc utp te -> t_state te = Initialized -> (ext_fee mu <> None -> In XtTransferFeeAmount (map acct_ext_type_of (t_exts te))) ->
  mint_account l w wtp mw -> token_account l recipient wtp tr -> t_mint tr = w -> t_state tr = Initialized ->
  (ever (no_permanent_delegate u) past l \/ supply l w + n < two64) ->
  (native_mint u -> lamports l esc + lamports l source < two64 /\ e_rent e (data_len (a_data (l source))) + n <= lamports l source /\
                    e_rent e (data_len (a_data (l esc))) <= lamports l esc) ->
  exists l' f, run_line e fee net cfg c l = (l', Confirmed) /\ fee_for mu (e_epoch e) n f /\ f <= n /\
    balance l' source = balance l source - n /\ balance l' esc = balance l esc + (n - f) /\
    balance l' recipient = balance l recipient + (n - f) /\ supply l' w = supply l w + (n - f) /\
    paid l l' payer fee /\ only_changed l l' [payer; source; esc; w; recipient].
Proof.
  intros e0 e past l net cfg o parts m h fee source recipient wtp n mint rec utp' u utp owner members mu mw ts te tr payer c
    Gm Gu Gr Ow Me Dr So Bh Rc T M Pa Sg A H C Tw Tu w a esc D1 D2 D3 Act Hx Mo Wal Fee Hs Op Ls Pos Le Lt Ne Hu He Ste Wit Hw Hr Mr Sr Sup Nat.
  destruct (team_all_sign e fee net cfg c o l m parts owner members eq_refl T M Pa Sg Ow Me A) as (Al & Pay & Ge). fold payer in Al, Pay.
  set (x := wrap_args_of source wtp n mint rec utp' o).
  assert (Ask : wrap_asks e payer x u utp wtp source recipient owner members n).
  { unfold wrap_asks, x, wrap_args_of. cbn [wa_source wa_wtp wa_amount wa_mint wa_utp wa_recipient wa_authority wa_multisig wa_presigners].
    split; [reflexivity|]. split; [reflexivity|]. split; [reflexivity|]. split; [exact Gm|]. split; [exact Gu|]. split; [exact Gr|].
    split; [unfold payer; rewrite acting_key; exact Ow|]. split; [exact Me|exact Al]. }
  destruct (C42_wraps e0 e past l fee payer x u utp wtp source recipient owner members n mu mw ts te tr H C Tw Tu D1 D2 D3 Ask Act Hx Mo Wal Fee
    Hs Op Ls Pos Le Lt Ne Hu He Ste Wit Hw Hr Mr Sr Sup Nat) as (t & l' & f & X & Ac & R).
  exists l', f. split; [|exact R]. apply (C65_sent e fee net cfg c o l l' eq_refl Dr So Pay). split; [unfold hash_given; rewrite Bh; reflexivity|].
  exists t, m. split; [exact X|]. split; [exact Ac|]. split; [exact M|]. split; [|exact Ge].
  apply (message_of_iff e net cfg c o l m eq_refl) in M. destruct M as (_ & i & _ & ->). cbn [compile mg_hash]. unfold hash_for. rewrite Bh. exact Rc.
Qed.
Print Assumptions C65_team_wraps.
Theorem C65_team_unwraps : forall e0 e past l net cfg o parts m h fee source recipient wtp n mint wtp' utp' u utp owner members mu ts tr,
  let payer := sg_key (cf_payer cfg) in let c := LineUnwrap source recipient n mint wtp' utp' o in
  (* the command line *)
  given mint u -> given utp' utp -> given wtp' wtp ->
  sg_key (authority_or (cf_payer cfg) (so_authority o)) = owner -> map sg_key (so_multisig o) = members ->
  cf_dry_run cfg = false -> so_sign_only o = false -> so_blockhash o = Some h -> nt_recent net h = true ->
  (* everybody has signed this message, here or elsewhere *)
  tidy cfg c -> message_of e net cfg c l m -> (forall p, In p parts -> printed e fee p m /\ tidy (pt_cfg p) (pt_line p)) -> so_signatures o = flat_map pt_printed parts ->
  (forall k, In k (asked payer owner members) -> knows cfg o k \/ exists p q, In p parts /\ options (pt_line p) = Some q /\ endorsed (pt_cfg p) q m k) ->
  (* the situation of C43 *)
  history e0 past l -> ever (no_permanent_delegate u) past l -> same_curve e0 e -> spl_or_t22 wtp -> spl_or_t22 utp ->
  let w := wrapped_mint_of e u wtp in let a := authority_of e w in let esc := escrow_of e u utp wtp in
  derivable e (wrapped_mint_seeds u wtp) tw_id -> derivable e (wrapped_mint_authority_seeds w) tw_id -> derivable e (ata_seeds a u utp) ata_id ->
  may_act l wtp owner members -> helper_finds e l owner members -> helper_usual e ->
  wallet l payer -> fee + e_rent e 0 <= lamports l payer ->
  holder l wtp w source owner ts -> 0 < lamports l source -> 0 < n -> n <= t_amount ts -> n < two64 ->
  transferable l utp u mu -> 0 < lamports l u -> can_receive e l utp u recipient mu tr -> 0 < lamports l recipient -> recipient <> esc -> open_account l esc ->
  (native_mint u -> lamports l recipient + lamports l esc < two64 /\ e_rent e (data_len (a_data (l esc))) + n <= lamports l esc /\
                    e_rent e (data_len (a_data (l recipient))) <= lamports l recipient) ->
  exists l' f, run_line e fee net cfg c l = (l', Confirmed) /\ fee_for mu (e_epoch e) n f /\ f <= n /\
    balance l' source = balance l source - n /\ supply l' w = supply l w - n /\ balance l' esc = balance l esc - n /\
    balance l' recipient = balance l recipient + (n - f) /\
    paid l l' payer fee /\ only_changed l l' [payer; source; esc; w; recipient].
Proof.
  intros e0 e past l net cfg o parts m h fee source recipient wtp n mint wtp' utp' u utp owner members mu ts tr payer c
    Gm Gu Gw Ow Me Dr So Bh Rc T M Pa Sg A H Np C Tw Tu w a esc D1 D2 D3 Act Hx Us Wal Fee Hs Ls Pos Le Lt Hu Lu Hr Lr Ne Op Nat.
  destruct (team_all_sign e fee net cfg c o l m parts owner members eq_refl T M Pa Sg Ow Me A) as (Al & Pay & Ge). fold payer in Al, Pay.
  set (x := unwrap_args_of source recipient n mint wtp' utp' o).
  assert (Ask : unwrap_asks payer x u utp wtp source recipient owner members n).
  { unfold unwrap_asks, x, unwrap_args_of. cbn [ua_source ua_recipient ua_amount ua_mint ua_utp ua_wtp ua_authority ua_multisig ua_presigners].
    split; [reflexivity|]. split; [reflexivity|]. split; [reflexivity|]. split; [exact Gm|]. split; [exact Gu|]. split; [exact Gw|].
    split; [unfold payer; rewrite acting_key; exact Ow|]. split; [exact Me|exact Al]. }
  destruct (C43_unwraps e0 e past l fee payer x u utp wtp source recipient owner members n mu ts tr H Np C Tw Tu D1 D2 D3 Ask Act Hx Us Wal Fee
    Hs Ls Pos Le Lt Hu Lu Hr Lr Ne Op Nat) as (t & l' & f & X & Ac & R).
  exists l', f. split; [|exact R]. apply (C65_sent e fee net cfg c o l l' eq_refl Dr So Pay). split; [unfold hash_given; rewrite Bh; reflexivity|].
  exists t, m. split; [exact X|]. split; [exact Ac|]. split; [exact M|]. split; [|exact Ge].
  apply (message_of_iff e net cfg c o l m eq_refl) in M. destruct M as (_ & i & _ & ->). cbn [compile mg_hash]. unfold hash_for. rewrite Bh. exact Rc.
Qed.
Print Assumptions C65_team_unwraps.

(** ** Examples: the 2-of-2 multisig of Alice and Bob, Carol paying.  Alice and Bob sign at home, without a view of the chain
    (the empty ledger); Carol sends. *)
Definition ms_line (alice bob : bool) (given : list (pubkey * signature)) (sign_only : bool) : command_line :=
  LineWrap d_ms_u t22_id 70 (Some d_u) (Some d_alice_w) (Some spl_token_id)
    (mkSigning (Some (mkSigner d_ms false)) [mkSigner d_alice alice; mkSigner d_bob bob] (Some 77) given sign_only).
Definition a_network : network := mkNetwork 99 (fun h => (70 <? h) && (h <? 100)).
Definition nowhere : ledger := now_of [].
Definition ss_of (r : report) : list (pubkey * signature) := match r with Signed _ ss => ss | _ => [] end.
Definition at_home (alice : bool) : participant :=
  let c := ms_line alice (negb alice) [] true in let g := mkConfig (mkSigner d_carol false) false in
  mkParticipant a_network g c nowhere (ss_of (snd (run_line demo_ms 5 a_network g c nowhere))).
Definition carol_sends : command_line := ms_line false false (flat_map pt_printed [at_home true; at_home false]) false.
Definition carol : config := mkConfig (mkSigner d_carol true) false.
Lemma ms_line_tidy p b alice bob given so : tidy (mkConfig (mkSigner d_carol p) b) (ms_line alice bob given so).
Proof.
  intros o O. injection O as <-. intros s x Hs Hx E. cbn in Hs, Hx. destruct Hs as [<-|[<-|[<-|[<-|[]]]]]; destruct Hx as [<-|[<-|[<-|[<-|[]]]]]; try reflexivity; discriminate E.
Qed.
Definition one_message (a b c : report) : bool := match a, b, c with Signed m _, Signed m' _, Signed m'' _ => message_eqb m m' && message_eqb m m'' | _, _, _ => false end.
Lemma one_message_yes a b c : one_message a b c = true -> exists m ss, a = Signed m (ss_of a) /\ b = Signed m (ss_of b) /\ c = Signed m ss.
Proof.
  intro X. destruct a as [|?| |m ss| |]; try discriminate X. destruct b as [|?| |m' ss'| |]; try discriminate X. destruct c as [|?| |m'' ss''| |]; try discriminate X.
  apply andb_true_iff in X. destruct X as [X Y]. apply message_eqb_eq in X. apply message_eqb_eq in Y. subst m' m''. exists m, ss''. split; [reflexivity|]. split; reflexivity.
Qed.
Lemma at_home_message : exists m, printed demo_ms 5 (at_home true) m /\ printed demo_ms 5 (at_home false) m /\ message_of demo_ms a_network carol carol_sends (now_of ms_story) m.
Proof.
  assert (X : one_message (snd (run_line demo_ms 5 a_network (mkConfig (mkSigner d_carol false) false) (ms_line true false [] true) nowhere))
                          (snd (run_line demo_ms 5 a_network (mkConfig (mkSigner d_carol false) false) (ms_line false true [] true) nowhere))
                          (snd (run_line demo_ms 0 a_network carol (ms_line false false [] true) (now_of ms_story))) = true) by (vm_compute; reflexivity).
  apply one_message_yes in X. destruct X as (m & ss & A & B & C). exists m. split; [exact A|]. split; [exact B|].
  exists (mkSigning (Some (mkSigner d_ms false)) [mkSigner d_alice false; mkSigner d_bob false] (Some 77) (flat_map pt_printed [at_home true; at_home false]) false), ss.
  split; [reflexivity|exact C].
Qed.
Example C65_example : exists l', run_line demo_ms 5 a_network carol carol_sends (now_of ms_story) = (l', Confirmed) /\
  balance l' d_ms_u = 430 /\ balance l' (d_esc spl_token_id t22_id) = 70 /\ paid (now_of ms_story) l' d_carol 5.
Proof.
  destruct at_home_message as (m & Pa & Pb & M).
  assert (S : exists ts, a_data (now_of ms_story d_ms_u) = DTok ts) by (eexists; vm_compute; reflexivity). destruct S as [ts Hs].
  assert (R : exists tr, a_data (now_of ms_story d_alice_w) = DTok tr) by (eexists; vm_compute; reflexivity). destruct R as [tr Hr].
  assert (E : exists te, a_data (now_of ms_story (d_esc spl_token_id t22_id)) = DTok te) by (eexists; vm_compute; reflexivity). destruct E as [te He].
  assert (Q : exists mu, a_data (now_of ms_story d_u) = DMint mu) by (eexists; vm_compute; reflexivity). destruct Q as [mu Hm].
  assert (W : exists mw, a_data (now_of ms_story (d_w t22_id)) = DMint mw) by (eexists; vm_compute; reflexivity). destruct W as [mw Hw].
  destruct (C65_team_wraps demo_env demo_ms (past_of ms_story) (now_of ms_story) a_network carol
     (mkSigning (Some (mkSigner d_ms false)) [mkSigner d_alice false; mkSigner d_bob false] (Some 77) (flat_map pt_printed [at_home true; at_home false]) false)
     [at_home true; at_home false] m 77 5 d_ms_u d_alice_w t22_id 70 (Some d_u) (Some d_alice_w) (Some spl_token_id) d_u spl_token_id d_ms [d_alice; d_bob] mu mw ts te tr)
    as (l' & f & H2 & H5 & _ & H3 & H6 & _ & _ & H4 & _).
  - right; reflexivity.
  - right; reflexivity.
  - left; reflexivity.
  - reflexivity.
  - reflexivity.
  - reflexivity.
  - reflexivity.
  - reflexivity.
  - reflexivity.
  - exact (ms_line_tidy true false false false (flat_map pt_printed [at_home true; at_home false]) false).
  - exact M.
  - intros p [<-|[<-|[]]]; [split; [exact Pa|exact (ms_line_tidy false false true false [] true)]|split; [exact Pb|exact (ms_line_tidy false false false true [] true)]].
  - reflexivity.
  - intros k [<-|[<-|[<-|[]]]].
    + left. exists (mkSigner d_carol true). split; [left; reflexivity|split; reflexivity].
    + right. exists (at_home true). eexists. split; [left; reflexivity|]. split; [reflexivity|]. left. exists (mkSigner d_alice true). split; [right; right; left; reflexivity|split; reflexivity].
    + right. exists (at_home false). eexists. split; [right; left; reflexivity|]. split; [reflexivity|]. left. exists (mkSigner d_bob true). split; [right; right; right; left; reflexivity|split; reflexivity].
  - apply played_history. vm_compute. reflexivity.
  - intros s p. reflexivity.
  - right; reflexivity.
  - left; reflexivity.
  - exact (demo_derivable (wrapped_mint_seeds d_u t22_id) tw_id).
  - exact (demo_derivable (wrapped_mint_authority_seeds (d_w t22_id)) tw_id).
  - exact (demo_derivable (ata_seeds (d_a t22_id) d_u spl_token_id) ata_id).
  - right. split; [discriminate|]. exists (mkMultisig 2 [d_alice; d_bob]). split; [vm_compute; reflexivity|]. split; [vm_compute; reflexivity|vm_compute; discriminate].
  - apply demo_ms_appends.
  - intros x _. vm_compute. reflexivity.
  - vm_compute. repeat split; reflexivity.
  - vm_compute. discriminate.
  - revert Hs. vm_compute. intro X. inversion X; subst ts. repeat split; auto; discriminate.
  - intros t X. change (a_data (now_of ms_story d_ms_u) = DTok t) in X. rewrite Hs in X. inversion X; subst t. clear X. revert Hs. vm_compute. intro X. inversion X; subst ts. split; [reflexivity|intros []].
  - vm_compute. reflexivity.
  - lia.
  - revert Hs. vm_compute. intro X. inversion X; subst ts. discriminate.
  - reflexivity.
  - vm_compute. discriminate.
  - revert Hm. vm_compute. intro X. inversion X; subst mu. repeat split; auto; intros; discriminate.
  - revert He. vm_compute. intro X. inversion X; subst te. repeat split; auto; discriminate.
  - revert He. vm_compute. intro X. inversion X; subst te. reflexivity.
  - revert Hm. vm_compute. intro Y. inversion Y; subst mu. intro Z. exfalso. apply Z. reflexivity.
  - revert Hw. vm_compute. intro X. inversion X; subst mw. repeat split; auto; discriminate.
  - revert Hr. vm_compute. intro X. inversion X; subst tr. repeat split; auto; discriminate.
  - revert Hr. vm_compute. intro X. inversion X; subst tr. reflexivity.
  - revert Hr. vm_compute. intro X. inversion X; subst tr. reflexivity.
  - right. vm_compute. reflexivity.
  - intros [X|X]; exfalso; vm_compute in X; discriminate X.
  - exists l'. split; [exact H2|].
    assert (f = 0). { revert H5 Hm. clear. intros H5 Hm. revert Hm. vm_compute. intro X. inversion X; subst mu. exact H5. }
    subst f. split; [rewrite H3; vm_compute; reflexivity|]. split; [|exact H4].
    change (escrow_of demo_ms d_u spl_token_id t22_id) with (d_esc spl_token_id t22_id) in H6. rewrite H6. vm_compute. reflexivity.
Qed.
(** Bob's signature over another amount is refused, before anything is sent. *)
Example C65_bound_example :
  let c70 := ms_line false true [] true in
  let c := LineWrap d_ms_u t22_id 71 (Some d_u) (Some d_alice_w) (Some spl_token_id)
    (mkSigning (Some (mkSigner d_ms false)) [mkSigner d_alice true; mkSigner d_bob false] (Some 77) (ss_of (snd (run_line demo_ms 5 a_network carol c70 nowhere))) false) in
  length (ss_of (snd (run_line demo_ms 5 a_network carol c70 nowhere))) = 2%nat /\ snd (run_line demo_ms 5 a_network carol c (now_of ms_story)) = Rejected EPanic.
Proof. cbv zeta. split; vm_compute; reflexivity. Qed.
(** Finding: `--dry-run` says "Simulation succeeded" for a wrap the chain refuses: Alice wraps more than she has. *)
Definition too_much : command_line := LineWrap d_alice_u t22_id 100000 None (Some d_alice_w) None (mkSigning None [] None [] false).
Example C65_dry_run_blind :
  run_line demo_env 5 a_network (mkConfig (mkSigner d_alice true) true) too_much (now_of story) = (now_of story, Simulated) /\
  exists err, snd (run_line demo_env 5 a_network (mkConfig (mkSigner d_alice true) false) too_much (now_of story)) = Rejected err.
Proof.
  split.
  - apply (C65_dry_run demo_env 5 a_network (mkConfig (mkSigner d_alice true) true) too_much (mkSigning None [] None [] false) (now_of story) eq_refl eq_refl eq_refl). split; [reflexivity|].
    assert (X : match snd (run_line demo_env 0 a_network (mkConfig (mkSigner d_alice true) true) (with_options (just_sign (mkSigning None [] None [] false)) too_much) (now_of story)) with Signed _ _ => true | _ => false end = true) by (vm_compute; reflexivity).
    destruct (snd (run_line demo_env 0 a_network (mkConfig (mkSigner d_alice true) true) (with_options (just_sign (mkSigning None [] None [] false)) too_much) (now_of story))) as [|?| |m ss| |] eqn:E; try discriminate X.
    exists m. split; [|intros q []]. eexists. exists ss. split; [reflexivity|exact E].
  - assert (X : match snd (run_line demo_env 5 a_network (mkConfig (mkSigner d_alice true) false) too_much (now_of story)) with Rejected _ => true | _ => false end = true) by (vm_compute; reflexivity).
    destruct (snd (run_line demo_env 5 a_network (mkConfig (mkSigner d_alice true) false) too_much (now_of story))) as [err|?| | | |]; try discriminate X. exists err. reflexivity.
Qed.
(** Why [tidy]: Alice pays with her key pair, and names herself as a member by address; the later mention empties her slot,
    and the transaction is refused for want of her signature. *)
Example C65_untidy : let c alice := LineWrap d_ms_u t22_id 70 (Some d_u) (Some d_alice_w) (Some spl_token_id)
    (mkSigning (Some (mkSigner d_ms false)) [mkSigner d_alice alice; mkSigner d_bob true] (Some 77) [] false) in
  snd (run_line demo_ms 5 a_network (mkConfig (mkSigner d_alice true) false) (c false) (now_of ms_story)) = Rejected EMissingRequiredSignature /\
  snd (run_line demo_ms 5 a_network (mkConfig (mkSigner d_alice true) false) (c true) (now_of ms_story)) = Confirmed.
Proof. cbv zeta. split; vm_compute; reflexivity. Qed.
(** A payer known only by address: the sync commands send an unsigned transaction, which is refused; the others panic. *)
Example C65_address_only : forall l,
  snd (run_line demo_env 5 a_network (mkConfig (mkSigner d_alice false) false) (LineCreateMint d_u t22_id false) l) = Rejected EPanic.
Proof.
  intro l. cbn [run_line cf_payer sg_key]. unfold process_plain. cbn [cf_payer sg_signs]. unfold one, cli_create_mint. rewrite parse_ok by (right; reflexivity). cbn [bind].
  rewrite (get_w_ok demo_env d_u t22_id (demo_derivable (wrapped_mint_seeds d_u t22_id) tw_id)). cbn [bind].
  assert (X : match get_wrapped_mint_backpointer_address demo_env (wrapped_mint_of demo_env d_u t22_id) with Ok _ => true | Err _ => false end = true) by (vm_compute; reflexivity).
  destruct (get_wrapped_mint_backpointer_address demo_env (wrapped_mint_of demo_env d_u t22_id)) as [b|err]; [reflexivity|discriminate X].
Qed.
(** C65_offline at work: what Carol sends is what one machine with all three key pairs sends. *)
Example C65_offline_example :
  run_line demo_ms 5 a_network carol carol_sends (now_of ms_story) = run_line demo_ms 5 a_network carol (ms_line true true [] false) (now_of ms_story).
Proof.
  destruct at_home_message as (m & Pa & Pb & M).
  apply (C65_offline demo_ms 5 a_network carol carol_sends
     (mkSigning (Some (mkSigner d_ms false)) [mkSigner d_alice false; mkSigner d_bob false] (Some 77) (flat_map pt_printed [at_home true; at_home false]) false)
     (now_of ms_story) m [at_home true; at_home false] carol (mkSigning (Some (mkSigner d_ms false)) [mkSigner d_alice true; mkSigner d_bob true] (Some 77) [] false)).
  - reflexivity.
  - exact (ms_line_tidy true false false false (flat_map pt_printed [at_home true; at_home false]) false).
  - exact M.
  - intros p [<-|[<-|[]]]; [split; [exact Pa|exact (ms_line_tidy false false true false [] true)]|split; [exact Pb|exact (ms_line_tidy false false false true [] true)]].
  - reflexivity.
  - reflexivity.
  - repeat split; reflexivity.
  - reflexivity.
  - reflexivity.
  - reflexivity.
  - reflexivity.
  - exact (ms_line_tidy true false true true [] false).
  - intro k. split.
    + intros (s & [<-|[<-|[<-|[<-|[]]]]] & <- & V); cbn [sg_signs] in V; try discriminate V.
      * left. exists (mkSigner d_carol true). split; [left; reflexivity|split; reflexivity].
      * right. exists (at_home true). eexists. split; [left; reflexivity|]. split; [reflexivity|]. left. exists (mkSigner d_alice true). split; [right; right; left; reflexivity|split; reflexivity].
      * right. exists (at_home false). eexists. split; [right; left; reflexivity|]. split; [reflexivity|]. left. exists (mkSigner d_bob true). split; [right; right; right; left; reflexivity|split; reflexivity].
    + intros [(s & [<-|[<-|[<-|[<-|[]]]]] & <- & V)|(p & q & [<-|[<-|[]]] & O & [(s & Hs & <- & V)|X])]; try (cbn [sg_signs] in V; discriminate V).
      * exists (mkSigner d_carol true). split; [left; reflexivity|split; reflexivity].
      * injection O as <-. destruct Hs as [<-|[<-|[<-|[<-|[]]]]]; cbn [sg_signs] in V; try discriminate V. exists (mkSigner d_alice true). split; [right; right; left; reflexivity|split; reflexivity].
      * injection O as <-. destruct X.
      * injection O as <-. destruct Hs as [<-|[<-|[<-|[<-|[]]]]]; cbn [sg_signs] in V; try discriminate V. exists (mkSigner d_bob true). split; [right; right; right; left; reflexivity|split; reflexivity].
      * injection O as <-. destruct X.
Qed.
(** The same for unwrapping: here every participant reads the chain. *)
Definition ms2_line (alice bob : bool) (given : list (pubkey * signature)) (sign_only : bool) : command_line :=
  LineUnwrap d_ms_w d_alice_u 40 None None None
    (mkSigning (Some (mkSigner d_ms2 false)) [mkSigner d_alice alice; mkSigner d_bob bob] (Some 77) given sign_only).
Definition signs_unwrap (alice : bool) : participant :=
  let c := ms2_line alice (negb alice) [] true in let g := mkConfig (mkSigner d_carol false) false in
  mkParticipant a_network g c (now_of ms2_story) (ss_of (snd (run_line demo_ms 5 a_network g c (now_of ms2_story)))).
Definition carol_unwraps : command_line := ms2_line false false (flat_map pt_printed [signs_unwrap true; signs_unwrap false]) false.
Lemma ms2_line_tidy p b alice bob given so : tidy (mkConfig (mkSigner d_carol p) b) (ms2_line alice bob given so).
Proof.
  intros o O. injection O as <-. intros s x Hs Hx E. cbn in Hs, Hx. destruct Hs as [<-|[<-|[<-|[<-|[]]]]]; destruct Hx as [<-|[<-|[<-|[<-|[]]]]]; try reflexivity; discriminate E.
Qed.
Lemma signs_unwrap_message : exists m, printed demo_ms 5 (signs_unwrap true) m /\ printed demo_ms 5 (signs_unwrap false) m /\ message_of demo_ms a_network carol carol_unwraps (now_of ms2_story) m.
Proof.
  assert (X : one_message (snd (run_line demo_ms 5 a_network (mkConfig (mkSigner d_carol false) false) (ms2_line true false [] true) (now_of ms2_story)))
                          (snd (run_line demo_ms 5 a_network (mkConfig (mkSigner d_carol false) false) (ms2_line false true [] true) (now_of ms2_story)))
                          (snd (run_line demo_ms 0 a_network carol (ms2_line false false [] true) (now_of ms2_story))) = true) by (vm_compute; reflexivity).
  apply one_message_yes in X. destruct X as (m & ss & A & B & C). exists m. split; [exact A|]. split; [exact B|].
  exists (mkSigning (Some (mkSigner d_ms2 false)) [mkSigner d_alice false; mkSigner d_bob false] (Some 77) (flat_map pt_printed [signs_unwrap true; signs_unwrap false]) false), ss.
  split; [reflexivity|exact C].
Qed.
Example C65_unwrap_example : exists l', run_line demo_ms 5 a_network carol carol_unwraps (now_of ms2_story) = (l', Confirmed) /\
  balance l' d_ms_w = 50 /\ balance l' (d_esc spl_token_id t22_id) = 260 /\ paid (now_of ms2_story) l' d_carol 5.
Proof.
  destruct signs_unwrap_message as (m & Pa & Pb & M).
  assert (S : exists ts, a_data (now_of ms2_story d_ms_w) = DTok ts) by (eexists; vm_compute; reflexivity). destruct S as [ts Hs].
  assert (R : exists tr, a_data (now_of ms2_story d_alice_u) = DTok tr) by (eexists; vm_compute; reflexivity). destruct R as [tr Hr].
  assert (E : exists te, a_data (now_of ms2_story (d_esc spl_token_id t22_id)) = DTok te) by (eexists; vm_compute; reflexivity). destruct E as [te He].
  assert (Q : exists mu, a_data (now_of ms2_story d_u) = DMint mu) by (eexists; vm_compute; reflexivity). destruct Q as [mu Hm].
  destruct (C65_team_unwraps demo_env demo_ms (past_of ms2_story) (now_of ms2_story) a_network carol
     (mkSigning (Some (mkSigner d_ms2 false)) [mkSigner d_alice false; mkSigner d_bob false] (Some 77) (flat_map pt_printed [signs_unwrap true; signs_unwrap false]) false)
     [signs_unwrap true; signs_unwrap false] m 77 5 d_ms_w d_alice_u t22_id 40 None None None d_u spl_token_id d_ms2 [d_alice; d_bob] mu ts tr)
    as (l' & f & H2 & H5 & _ & H3 & _ & H6 & _ & H4 & _).
  - left; reflexivity.
  - left; reflexivity.
  - left; reflexivity.
  - reflexivity.
  - reflexivity.
  - reflexivity.
  - reflexivity.
  - reflexivity.
  - reflexivity.
  - exact (ms2_line_tidy true false false false (flat_map pt_printed [signs_unwrap true; signs_unwrap false]) false).
  - exact M.
  - intros p [<-|[<-|[]]]; [split; [exact Pa|exact (ms2_line_tidy false false true false [] true)]|split; [exact Pb|exact (ms2_line_tidy false false false true [] true)]].
  - reflexivity.
  - intros k [<-|[<-|[<-|[]]]].
    + left. exists (mkSigner d_carol true). split; [left; reflexivity|split; reflexivity].
    + right. exists (signs_unwrap true). eexists. split; [left; reflexivity|]. split; [reflexivity|]. left. exists (mkSigner d_alice true). split; [right; right; left; reflexivity|split; reflexivity].
    + right. exists (signs_unwrap false). eexists. split; [right; left; reflexivity|]. split; [reflexivity|]. left. exists (mkSigner d_bob true). split; [right; right; right; left; reflexivity|split; reflexivity].
  - apply played_history. vm_compute. reflexivity.
  - exact ms2_story_no_pd.
  - intros s p. reflexivity.
  - right; reflexivity.
  - left; reflexivity.
  - exact (demo_derivable (wrapped_mint_seeds d_u t22_id) tw_id).
  - exact (demo_derivable (wrapped_mint_authority_seeds (d_w t22_id)) tw_id).
  - exact (demo_derivable (ata_seeds (d_a t22_id) d_u spl_token_id) ata_id).
  - right. split; [discriminate|]. exists (mkMultisig 2 [d_alice; d_bob]). split; [vm_compute; reflexivity|]. split; [vm_compute; reflexivity|vm_compute; discriminate].
  - intros l1 accounts _ X _. cbn [demo_ms e_multisig]. rewrite X. reflexivity.
  - exact demo_ms_usual.
  - vm_compute. repeat split; reflexivity.
  - vm_compute. discriminate.
  - revert Hs. vm_compute. intro X. inversion X; subst ts. repeat split; auto; discriminate.
  - vm_compute. reflexivity.
  - lia.
  - revert Hs. vm_compute. intro X. inversion X; subst ts. discriminate.
  - reflexivity.
  - revert Hm. vm_compute. intro X. inversion X; subst mu. repeat split; auto; intros; discriminate.
  - vm_compute. reflexivity.
  - revert Hr. vm_compute. intro X. inversion X; subst tr. revert Hm. vm_compute. intro Y. inversion Y; subst mu.
    split; [repeat split; discriminate|]. split; [reflexivity|]. split; [reflexivity|]. split; [discriminate|]. intro Z. exfalso. apply Z. reflexivity.
  - vm_compute. reflexivity.
  - vm_compute. discriminate.
  - intros t X. change (a_data (now_of ms2_story (d_esc spl_token_id t22_id)) = DTok t) in X. rewrite He in X. inversion X; subst t. clear X. revert He. vm_compute. intro X. inversion X; subst te. split; [reflexivity|intros []].
  - intros [X|X]; exfalso; vm_compute in X; discriminate X.
  - exists l'. split; [exact H2|].
    assert (f = 0). { revert H5 Hm. clear. intros H5 Hm. revert Hm. vm_compute. intro X. inversion X; subst mu. exact H5. }
    subst f. split; [rewrite H3; vm_compute; reflexivity|]. split; [|exact H4].
    change (escrow_of demo_ms d_u spl_token_id t22_id) with (d_esc spl_token_id t22_id) in H6. rewrite H6. vm_compute. reflexivity.
Qed.
