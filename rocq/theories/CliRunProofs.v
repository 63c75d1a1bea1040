(** * CliRunProofs.v — lemmas for C65: signing slot by slot. *)
From Verif Require Import Base Codec State Pda TokenProg Cpi Ata Meta Processor Builders Cli Js CliRun Tac PdaProofs TokProofs ProcProofs Spec HistorySpec CliSpec JsSpec CliRunSpec CloseProofs SpecLemmas
  CliProofs CliSign PropCli PropCliWrap PropCliUnwrap PropJsMulti.

(** ** Signatures *)
Definition to_signer (s : source) : signer := match s with SrcSigner x => x | SrcSignature k _ => mkSigner k true end.
Definition fits (m : message) (s : source) : Prop := match s with SrcSigner _ => True | SrcSignature k g => g = SigOf k m end.
Lemma to_signer_key s : sg_key (to_signer s) = src_key s.
Proof. destruct s; reflexivity. Qed.
Lemma src_sign_ok m s g : src_sign m s = Ok g <-> fits m s /\ g = if sg_signs (to_signer s) then Some (SigOf (src_key s) m) else None.
Proof.
  destruct s as [x|k y]; cbn [src_sign fits to_signer src_key sg_signs].
  - split; [intro H; injection H as <-; split; [exact I|reflexivity]|intros [_ ->]; reflexivity].
  - split.
    + intro H. apply bind_ok in H. destruct H as ([] & E & H). apply guard_ok in E. apply genuine_inv in E. injection H as <-. subst y. split; reflexivity.
    + intros [-> ->]. rewrite bind_guard_true; [reflexivity|]. apply genuine_yes.
Qed.
Definition upto (m : message) (ss : list source) (k : pubkey) (v : option signature) : option signature :=
  fold_left (fun acc s => if pk_eqb (src_key s) k then (if sg_signs (to_signer s) then Some (SigOf k m) else None) else acc) ss v.
Lemma sign_slots_ok m ss : forall sigs sigs', sign_slots m ss sigs = Ok sigs' <->
  (forall s, In s ss -> fits m s) /\ sigs' = map (fun p => (fst p, upto m ss (fst p) (snd p))) sigs.
Proof.
  induction ss as [|s r IH]; intros sigs sigs'; cbn [sign_slots].
  - split.
    + intro H. injection H as <-. split; [intros s []|]. rewrite <- (map_id sigs) at 1. apply map_ext. intros [k v]. reflexivity.
    + intros [_ ->]. f_equal. rewrite <- (map_id sigs) at 1. apply map_ext. intros [k v]. reflexivity.
  - assert (Q : map (fun p => (fst p, upto m r (fst p) (snd p))) (put_signature (src_key s) (if sg_signs (to_signer s) then Some (SigOf (src_key s) m) else None) sigs)
                = map (fun p => (fst p, upto m (s :: r) (fst p) (snd p))) sigs).
    { unfold put_signature. rewrite map_map. apply map_ext. intros [k v]. cbn [fst snd upto fold_left]. rewrite pk_eqb_sym. destruct (pk_eqb (src_key s) k) eqn:E; cbn [fst snd].
      - apply pk_eqb_eq in E. subst k. reflexivity.
      - reflexivity. }
    split.
    + intro H. apply bind_ok in H. destruct H as (g & G & H). apply src_sign_ok in G. destruct G as [F ->]. apply IH in H. destruct H as [A ->]. split; [|exact Q].
      intros x [<-|Hx]; [exact F|exact (A x Hx)].
    + intros [A ->]. assert (G : src_sign m s = Ok (if sg_signs (to_signer s) then Some (SigOf (src_key s) m) else None)) by (apply src_sign_ok; split; [apply A; left; reflexivity|reflexivity]).
      rewrite G. cbn [bind]. apply IH. split; [intros x Hx; apply A; right; exact Hx|symmetry; exact Q].
Qed.
Lemma upto_signs m ss k : forall b, upto m ss k (if b : bool then Some (SigOf k m) else None) =
  if fold_left (fun acc s => if pk_eqb (sg_key s) k then sg_signs s else acc) (map to_signer ss) b then Some (SigOf k m) else None.
Proof.
  induction ss as [|s r IH]; intro b; [reflexivity|]. cbn [map fold_left upto]. rewrite to_signer_key. destruct (pk_eqb (src_key s) k); [exact (IH (sg_signs (to_signer s)))|exact (IH b)].
Qed.
Lemma sign_message_ok e m ss sigs : sign_message e m ss = Ok sigs <->
  (forall s, In s ss -> In (src_key s) (slots e m)) /\ (forall s, In s ss -> fits m s) /\
  sigs = map (fun k => (k, if signs (map to_signer ss) k then Some (SigOf k m) else None)) (slots e m).
Proof.
  assert (Q : map (fun p => (fst p, upto m ss (fst p) (snd p))) (map (fun k => (k, None)) (slots e m))
              = map (fun k => (k, if signs (map to_signer ss) k then Some (SigOf k m) else None)) (slots e m)).
  { rewrite map_map. apply map_ext. intro k. cbn [fst snd]. f_equal. exact (upto_signs m ss k false). }
  unfold sign_message. split.
  - intro H. apply bind_ok in H. destruct H as ([] & E & H). apply guard_ok in E. rewrite forallb_forall in E. apply sign_slots_ok in H. destruct H as [F ->].
    split; [intros s Hs; apply pk_mem_In; exact (E s Hs)|]. split; [exact F|exact Q].
  - intros (A & F & ->). rewrite bind_guard_true.
    + apply sign_slots_ok. split; [exact F|symmetry; exact Q].
    + apply forallb_forall. intros s Hs. apply pk_mem_In. exact (A s Hs).
Qed.
Lemma verified_val m S ks : verified m (map (fun k => (k, if signs S k then Some (SigOf k m) else None)) ks) = map (fun k => (k, SigOf k m)) (filter (signs S) ks).
Proof.
  induction ks as [|k r IH]; [reflexivity|]. cbn [map verified flat_map fst snd filter]. fold (verified m (map (fun k => (k, if signs S k then Some (SigOf k m) else None)) r)). rewrite IH.
  destruct (signs S k); [|reflexivity]. rewrite genuine_yes. reflexivity.
Qed.
Definition pre (given : list (pubkey * signature)) : list signer := map (fun p => mkSigner (fst p) true) given.
Lemma sources_signers p a ms given : map to_signer (sources p a ms given) = tx_signers p a ms (pre given).
Proof.
  unfold sources, tx_signers, pre. rewrite map_app, !map_map. cbn [to_signer]. rewrite map_id, app_nil_r, <- !app_assoc. reflexivity.
Qed.
Lemma sources_in p a ms given s : In s (sources p a ms given) <-> (exists x, s = SrcSigner x /\ In x (tx_signers p a ms [])) \/ (exists q, s = SrcSignature (fst q) (snd q) /\ In q given).
Proof.
  unfold sources. rewrite in_app_iff, !in_map_iff. split; (intros [(x & E & H)|(q & E & H)]; [left; exists x|right; exists q]; (split; [symmetry; exact E|exact H])).
Qed.

(** ** The instruction of a line *)
Definition line_ix (e : env) (cfg : config) (c : command_line) (l : ledger) : res tw_instruction :=
  match c with
  | LineWrap source wtp n mint recipient utp o =>
      wrap_instruction e (sg_key (cf_payer cfg)) source wtp n mint recipient utp (sg_key (authority_or (cf_payer cfg) (so_authority o))) (map sg_key (so_multisig o)) l
  | LineUnwrap source recipient n mint wtp utp o =>
      unwrap_instruction e source recipient n mint wtp utp (sg_key (authority_or (cf_payer cfg) (so_authority o))) (map sg_key (so_multisig o)) l
  | _ => Err EPanic
  end.
Lemma run_options e fee net cfg c o l : options c = Some o -> run_line e fee net cfg c l = sign_and_process e fee net cfg o (line_ix e cfg c l) l.
Proof. destruct c; cbn [options]; intro H; try discriminate H; injection H as <-; reflexivity. Qed.
Lemma options_with o o' c : options c = Some o -> options (with_options o' c) = Some o'.
Proof. destruct c; cbn [options with_options]; intro H; try discriminate H; reflexivity. Qed.
Lemma line_ix_with e cfg cfg' c o o' l : options c = Some o -> same_people cfg o cfg' o' -> line_ix e cfg c l = line_ix e cfg' (with_options o' c) l.
Proof.
  intros H (A & B & C). assert (D : sg_key (authority_or (cf_payer cfg) (so_authority o)) = sg_key (authority_or (cf_payer cfg') (so_authority o'))).
  { destruct (so_authority o) as [x|], (so_authority o') as [y|]; cbn [option_map authority_or] in *; try discriminate B; [injection B as B; exact B|exact A]. }
  destruct c; cbn [options] in H; try discriminate H; injection H as ->; cbn [line_ix with_options]; rewrite D, C; [rewrite A|]; reflexivity.
Qed.
Lemma wrap_instruction_inv e P source wtp n mint recipient utp owner members l i :
  wrap_instruction e P source wtp n mint recipient utp owner members l = Ok i ->
  exists r u p, let w := wrapped_mint_of e u wtp in
    i = build_wrap tw_id r w (authority_of e w) p wtp source u (escrow_of e u p wtp) owner members n /\
    (mint = Some u \/ mint = None /\ exists ts, a_data (l source) = DTok ts /\ t_mint ts = u) /\
    (utp = Some p \/ utp = None /\ a_owner (l source) = p) /\
    (recipient = Some r \/ recipient = None /\ r = ata_of e P w wtp).
Proof.
  intro H. unfold wrap_instruction in H. apply bind_ok in H. destruct H as (q1 & _ & H). apply bind_ok in H. destruct H as (q2 & _ & H).
  apply bind_ok in H. destruct H as (u & E1 & H). apply bind_ok in H. destruct H as (w & Ew & H). apply get_wrapped_mint_address_ok in Ew.
  apply bind_ok in H. destruct H as (a & Ea & H). apply get_wrapped_mint_authority_ok in Ea. apply bind_ok in H. destruct H as (r & E2 & H).
  apply bind_ok in H. destruct H as (p & E3 & H). apply bind_ok in H. destruct H as (esc & Ee & H). apply escrow_found in Ee. injection H as <-.
  exists r, u, p. cbv zeta. rewrite <- Ew, <- Ea, <- Ee. split; [reflexivity|]. split; [|split].
  - destruct mint as [m|]; [injection E1 as ->; left; reflexivity|right]. split; [reflexivity|exact (mint_for_inv l source u E1)].
  - destruct utp as [m|]; [injection E3 as ->; left; reflexivity|right]. split; [reflexivity|symmetry; exact (owner_inv l source p E3)].
  - destruct recipient as [m|]; [injection E2 as ->; left; reflexivity|right]. split; [reflexivity|]. exact (get_ata_ok _ _ _ _ _ E2).
Qed.
Lemma unwrap_instruction_inv e source recipient n mint wtp utp owner members l i :
  unwrap_instruction e source recipient n mint wtp utp owner members l = Ok i ->
  exists u tr, let wp := a_owner (l source) in let p := a_owner (l u) in let w := wrapped_mint_of e u wp in
    i = build_unwrap tw_id (escrow_of e u p wp) recipient (authority_of e w) u wp p source w owner members n /\
    a_data (l recipient) = DTok tr /\ t_mint tr = u /\ given mint u /\ given wtp wp /\ given utp p.
Proof.
  intro H. unfold unwrap_instruction in H. apply bind_ok in H. destruct H as (q1 & _ & H). apply bind_ok in H. destruct H as (q2 & _ & H).
  apply bind_ok in H. destruct H as (q3 & E1 & H). apply bind_ok in H. destruct H as (wp & E2 & H). apply owner_inv in E1. apply agreed_inv in E2. destruct E2 as [-> E2].
  apply bind_ok in H. destruct H as (q4 & E3 & H). apply bind_ok in H. destruct H as (u & E4 & H). apply mint_for_inv in E3. apply agreed_inv in E4. destruct E4 as [-> E4].
  apply bind_ok in H. destruct H as (q5 & E5 & H). apply bind_ok in H. destruct H as (p & E6 & H). apply owner_inv in E5. apply agreed_inv in E6. destruct E6 as [-> E6].
  apply bind_ok in H. destruct H as (w & Ew & H). apply get_wrapped_mint_address_ok in Ew. apply bind_ok in H. destruct H as (a & Ea & H). apply get_wrapped_mint_authority_ok in Ea.
  apply bind_ok in H. destruct H as (esc & Ee & H). apply escrow_found in Ee. injection H as <-. destruct E3 as (tr & Dr & Mr).
  exists q4, tr. cbv zeta. rewrite <- E1, <- E5, <- Ew, <- Ea, <- Ee. split; [reflexivity|]. split; [exact Dr|]. split; [exact Mr|]. split; [exact E4|]. split; [exact E2|exact E6].
Qed.
Lemma line_ix_nine e cfg c o l i : options c = Some o -> line_ix e cfg c l = Ok i ->
  exists ms, tx_metas i = nine ms (sg_key (authority_or (cf_payer cfg) (so_authority o))) (map sg_key (so_multisig o)) /\ (forall m, In m ms -> i_signer m = false) /\ tx_prog i = tw_id.
Proof.
  intros O H. destruct c; cbn [options] in O; try discriminate O; injection O as ->; cbn [line_ix] in H.
  - apply wrap_instruction_inv in H. destruct H as (r & u & p & H). cbv zeta in H. destruct H as (-> & _).
    exists (eight_wrap r (wrapped_mint_of e u wtp) (authority_of e (wrapped_mint_of e u wtp)) p wtp source u (escrow_of e u p wtp)). split; [reflexivity|]. split; [|reflexivity].
    intros m Hm. exact (eight_wrap_unsigned _ _ _ _ _ _ _ _ m Hm).
  - apply unwrap_instruction_inv in H. destruct H as (u & tr & H). cbv zeta in H. destruct H as (-> & _).
    exists (eight_unwrap (escrow_of e u (a_owner (l u)) (a_owner (l source))) recipient (authority_of e (wrapped_mint_of e u (a_owner (l source)))) u (a_owner (l source)) (a_owner (l u)) source (wrapped_mint_of e u (a_owner (l source)))).
    split; [reflexivity|]. split; [|reflexivity]. intros m Hm. exact (eight_unwrap_unsigned _ _ _ _ _ _ _ _ m Hm).
Qed.
(** ** Who must sign *)
Lemma slots_signs e P i h k : In k (slots e (compile e P i h)) <-> must_sign e P [TxTokenWrap i] k = true.
Proof. rewrite (proj2 (slots_ok e _) k). cbn [compile mg_payer mg_ix]. rewrite raised_signs. reflexivity. Qed.
Lemma slots_asked e P i h ms owner members k : tx_metas i = nine ms owner members -> (forall m, In m ms -> i_signer m = false) ->
  In k (slots e (compile e P i h)) <-> In k (asked P owner members).
Proof.
  intros N U. rewrite slots_signs, one_signs, N, (nine_signed ms owner members k U). unfold asked. cbn [In]. split; intros [H|H]; [left; symmetry; exact H|right; exact H|left; symmetry; exact H|right; exact H].
Qed.
Lemma asked_named p a ms x : In x (tx_signers p a ms []) -> In (sg_key x) (asked (sg_key p) (sg_key a) (map sg_key ms)).
Proof.
  unfold tx_signers, asked. rewrite app_nil_r. cbn [app]. intros [<-|H]; [left; reflexivity|]. right. apply in_app_or in H. destruct H as [H|H].
  - destruct (_ && _) eqn:E; [|destruct H]. destruct H as [<-|[]]. apply andb_true_iff in E. destruct E as [_ E]. destruct ms; [left; reflexivity|discriminate E].
  - destruct ms as [|y r]; [destruct H|]. cbn [map]. change (In (sg_key x) (map sg_key (y :: r))). apply in_map. exact H.
Qed.
Lemma signs_named S k : signs S k = true -> exists s, In s S /\ sg_key s = k /\ sg_signs s = true.
Proof. exact (signs_in S k). Qed.

(** ** Signing and processing *)
Definition all_fit (e : env) (m : message) (o : signing) : Prop := forall q, In q (so_signatures o) -> In (fst q) (slots e m) /\ snd q = SigOf (fst q) m.
Definition the_signers (cfg : config) (o : signing) : list signer :=
  tx_signers (cf_payer cfg) (authority_or (cf_payer cfg) (so_authority o)) (so_multisig o) (pre (so_signatures o)).
Definition the_sources (cfg : config) (o : signing) : list source :=
  sources (cf_payer cfg) (authority_or (cf_payer cfg) (so_authority o)) (so_multisig o) (so_signatures o).
Lemma sign_line e net cfg c o l i sigs : options c = Some o -> line_ix e cfg c l = Ok i ->
  let m := compile e (sg_key (cf_payer cfg)) i (hash_for net o) in
  sign_message e m (the_sources cfg o) = Ok sigs <->
  all_fit e m o /\ sigs = map (fun k => (k, if signs (the_signers cfg o) k then Some (SigOf k m) else None)) (slots e m).
Proof.
  intros O H m. rewrite sign_message_ok. unfold the_sources at 3, the_signers. rewrite sources_signers. destruct (line_ix_nine e cfg c o l i O H) as (ms & N & U & _). split.
  - intros (A & F & E). split; [|exact E]. intros q Hq. assert (X : In (SrcSignature (fst q) (snd q)) (the_sources cfg o)) by (apply sources_in; right; exists q; split; [reflexivity|exact Hq]).
    split; [exact (A _ X)|exact (F _ X)].
  - intros (A & E). split; [|split; [|exact E]]; intros s Hs; apply sources_in in Hs; destruct Hs as [(x & -> & Hx)|(q & -> & Hq)]; cbn [src_key fits].
    + apply (slots_asked e _ i _ ms _ _ _ N U). apply asked_named. exact Hx.
    + exact (proj1 (A q Hq)).
    + exact I.
    + exact (proj2 (A q Hq)).
Qed.
Lemma run_fits e fee net cfg c o l i : options c = Some o -> line_ix e cfg c l = Ok i ->
  let m := compile e (sg_key (cf_payer cfg)) i (hash_for net o) in let ks := filter (signs (the_signers cfg o)) (slots e m) in
  hash_given o = true -> all_fit e m o ->
  run_line e fee net cfg c l = if so_sign_only o then (l, Signed m (map (fun k => (k, SigOf k m)) ks))
    else process_transaction e fee net (cf_dry_run cfg) (hash_for net o) (mkTx (sg_key (cf_payer cfg)) [TxTokenWrap (as_compiled e (sg_key (cf_payer cfg)) i)] ks) l.
Proof.
  intros O H m ks G F. rewrite (run_options e fee net cfg c o l O), H. unfold sign_and_process. rewrite G. cbn [negb]. cbv zeta. fold m. fold (the_sources cfg o).
  pose proof (proj2 (sign_line e net cfg c o l i _ O H) (conj F eq_refl)) as X. fold m in X. rewrite X. rewrite verified_val. fold ks. rewrite map_map. cbn [fst]. rewrite map_id. reflexivity.
Qed.
Lemma run_inv e fee net cfg c o l l' r : options c = Some o -> run_line e fee net cfg c l = (l', r) ->
  (l' = l /\ exists err, r = Rejected err) \/
  exists i, line_ix e cfg c l = Ok i /\ hash_given o = true /\ all_fit e (compile e (sg_key (cf_payer cfg)) i (hash_for net o)) o.
Proof.
  intros O H. rewrite (run_options e fee net cfg c o l O) in H. unfold sign_and_process in H. destruct (hash_given o) eqn:G; cbn [negb] in H.
  2:{ injection H as <- <-. left. split; [reflexivity|eexists; reflexivity]. }
  destruct (line_ix e cfg c l) as [i|err] eqn:Q; [|injection H as <- <-; left; split; [reflexivity|eexists; reflexivity]]. cbv zeta in H. fold (the_sources cfg o) in H.
  destruct (sign_message e _ (the_sources cfg o)) as [sigs|err] eqn:X; [|injection H as <- <-; left; split; [reflexivity|eexists; reflexivity]].
  right. exists i. split; [reflexivity|]. split; [reflexivity|]. apply (sign_line e net cfg c o l i sigs O Q) in X. exact (proj1 X).
Qed.
Lemma message_of_iff e net cfg c o l m : options c = Some o ->
  (message_of e net cfg c l m <-> hash_given (just_sign o) = true /\ exists i, line_ix e cfg c l = Ok i /\ m = compile e (sg_key (cf_payer cfg)) i (hash_for net o)).
Proof.
  intro O. assert (O1 : options (with_options (just_sign o) c) = Some (just_sign o)) by exact (options_with o (just_sign o) c O).
  assert (L : line_ix e cfg c l = line_ix e cfg (with_options (just_sign o) c) l) by (apply (line_ix_with e cfg cfg c o (just_sign o) l O); repeat split; reflexivity).
  split.
  - intros (o' & ss & O' & H). rewrite O in O'. injection O' as <-. destruct (run_line e 0 net cfg (with_options (just_sign o) c) l) as [l1 r] eqn:R. cbn [snd] in H. subst r.
    destruct (run_inv e 0 net cfg _ (just_sign o) l l1 _ O1 R) as [(_ & err & X)|(i & Q & G & F)]; [discriminate X|]. split; [exact G|]. exists i. split; [rewrite L; exact Q|].
    rewrite (run_fits e 0 net cfg _ (just_sign o) l i O1 Q G F) in R. cbn [just_sign so_sign_only] in R. injection R as _ R _. symmetry. exact R.
  - intros (G & i & Q & ->). rewrite L in Q. exists o. eexists. split; [exact O|].
    rewrite (run_fits e 0 net cfg _ (just_sign o) l i O1 Q G); [cbn [just_sign so_sign_only snd]; reflexivity|]. intros q [].
Qed.
Lemma hash_given_just o : hash_given o = true -> hash_given (just_sign o) = true.
Proof. unfold hash_given, just_sign. cbn [so_blockhash so_multisig so_signatures]. destruct (so_blockhash o); [reflexivity|]. destruct (is_nil (so_multisig o)); [reflexivity|discriminate]. Qed.
