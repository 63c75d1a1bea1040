(** * CliCreate.v — lemmas about the create-mint and create-escrow commands. *)
From Verif Require Import Base Codec State Pda TokenProg Cpi Ata Meta Processor Builders Cli Tac PdaProofs ProcProofs Spec HistorySpec CliSpec CloseProofs SpecLemmas
  PropCreate CliProofs.

Lemma lamports_of_eq l k : lamports_of l k = lamports l k.
Proof.
  unfold lamports_of, get_account, lamports. destruct (a_lamports (l k) =? 0) eqn:E; [|reflexivity]. apply N.eqb_eq in E. rewrite E. reflexivity.
Qed.
Lemma parse_ok p : spl_or_t22 p -> parse_token_program p = Ok p.
Proof. intros [-> | ->]; reflexivity. Qed.
Lemma get_w_ok e u p : derivable e (wrapped_mint_seeds u p) tw_id -> get_wrapped_mint_address e u p = Ok (wrapped_mint_of e u p).
Proof.
  intro D. unfold get_wrapped_mint_address, get_wrapped_mint_address_for_program, get_wrapped_mint_address_with_seed_for_program.
  rewrite (findable_get _ _ _ D). reflexivity.
Qed.
Lemma get_b_ok e w : derivable e (backpointer_seeds w) tw_id -> get_wrapped_mint_backpointer_address e w = Ok (backpointer_of e w).
Proof.
  intro D. unfold get_wrapped_mint_backpointer_address, get_wrapped_mint_backpointer_address_for_program, get_wrapped_mint_backpointer_address_with_seed_for_program.
  rewrite (findable_get _ _ _ D). reflexivity.
Qed.
Lemma get_a_ok e w : derivable e (wrapped_mint_authority_seeds w) tw_id -> get_wrapped_mint_authority e w = Ok (authority_of e w).
Proof.
  intro D. unfold get_wrapped_mint_authority, get_wrapped_mint_authority_for_program, get_wrapped_mint_authority_with_seed_for_program.
  rewrite (findable_get _ _ _ D). reflexivity.
Qed.
Lemma get_ata_live e a m p : derivable e (ata_seeds a m p) ata_id -> get_associated_token_address e a m p = Ok (ata_of e a m p).
Proof. intro D. unfold get_associated_token_address. rewrite (findable_get _ _ _ D). reflexivity. Qed.
Lemma get_esc_ok e u utp wtp :
  derivable e (wrapped_mint_seeds u wtp) tw_id -> derivable e (wrapped_mint_authority_seeds (wrapped_mint_of e u wtp)) tw_id ->
  derivable e (ata_seeds (authority_of e (wrapped_mint_of e u wtp)) u utp) ata_id ->
  get_escrow_address e u utp wtp = Ok (escrow_of e u utp wtp).
Proof.
  intros D1 D2 D3. unfold get_escrow_address, get_escrow_address_for_program.
  change (get_wrapped_mint_address_for_program e u wtp tw_id) with (get_wrapped_mint_address e u wtp). rewrite (get_w_ok e u wtp D1). cbn [bind].
  change (get_wrapped_mint_authority_for_program e (wrapped_mint_of e u wtp) tw_id) with (get_wrapped_mint_authority e (wrapped_mint_of e u wtp)).
  rewrite (get_a_ok e _ D2). cbn [bind]. rewrite (get_ata_live e _ _ _ D3). reflexivity.
Qed.

(** The transaction of create-mint. *)
Lemma cli_create_mint_eval e payer u wtp idem l size :
  spl_or_t22 wtp -> derivable e (wrapped_mint_seeds u wtp) tw_id -> derivable e (backpointer_seeds (wrapped_mint_of e u wtp)) tw_id -> promised_size wtp size ->
  cli_create_mint e payer u wtp idem l =
    Ok (mkTx payer (fund payer (wrapped_mint_of e u wtp) (e_rent e size - lamports l (wrapped_mint_of e u wtp)) ++
                    fund payer (backpointer_of e (wrapped_mint_of e u wtp)) (e_rent e 32 - lamports l (backpointer_of e (wrapped_mint_of e u wtp))) ++
                    [TxTokenWrap (build_create_mint tw_id (wrapped_mint_of e u wtp) (backpointer_of e (wrapped_mint_of e u wtp)) u wtp idem)]) [payer]).
Proof.
  intros Hp D1 D2 Hs. unfold cli_create_mint. rewrite (parse_ok wtp Hp). cbn [bind]. rewrite (get_w_ok e u wtp D1). cbn [bind].
  rewrite (get_b_ok e _ D2). cbn [bind]. rewrite !lamports_of_eq.
  destruct Hs as [[-> ->]|[-> ->]]; reflexivity.
Qed.
Lemma in_fund e payer k n ix x : In ix (fund payer k n) -> is_wr (ix_accounts e ix) x = true -> x = payer \/ x = k.
Proof.
  unfold fund. destruct (0 <? n); [|intros []]. intros [<-|[]] H. apply is_wr_In in H. destruct H as (m & Hm & Hk & _). cbn [ix_accounts] in Hm.
  destruct Hm as [<-|[<-|[]]]; cbn [meta_w i_key] in Hk; [left|right]; symmetry; exact Hk.
Qed.
Lemma in_fund_sig e payer k n ix x : In ix (fund payer k n) -> is_sig (ix_accounts e ix) x = true -> x = payer.
Proof.
  unfold fund. destruct (0 <? n); [|intros []]. intros [<-|[]] H. apply is_sig_In in H. destruct H as (m & Hm & Hk & Hs). cbn [ix_accounts] in Hm.
  destruct Hm as [<-|[<-|[]]]; cbn [meta_w i_key i_signer] in Hk, Hs; [symmetry; exact Hk|discriminate Hs].
Qed.
Definition create_ixs (payer w b u wtp : pubkey) (idem : bool) (n1 n2 : N) : list tx_ix :=
  fund payer w n1 ++ fund payer b n2 ++ [TxTokenWrap (build_create_mint tw_id w b u wtp idem)].
Lemma create_in payer w b u wtp idem n1 n2 : In (TxTokenWrap (build_create_mint tw_id w b u wtp idem)) (create_ixs payer w b u wtp idem n1 n2).
Proof. unfold create_ixs. apply in_or_app. right. apply in_or_app. right. left. reflexivity. Qed.
Lemma create_writes e payer w b u wtp idem n1 n2 k : may_write e payer (create_ixs payer w b u wtp idem n1 n2) k = true -> k = payer \/ k = w \/ k = b.
Proof.
  unfold may_write. intro H. apply orb_true_iff in H. destruct H as [H|H]; [left; apply pk_eqb_eq; exact H|].
  apply existsb_exists in H. destruct H as (ix & Hi & Hw). unfold create_ixs in Hi. apply in_app_or in Hi. destruct Hi as [Hi|Hi].
  - destruct (in_fund e _ _ _ _ _ Hi Hw) as [-> | ->]; [left|right; left]; reflexivity.
  - apply in_app_or in Hi. destruct Hi as [Hi|[<-|[]]].
    + destruct (in_fund e _ _ _ _ _ Hi Hw) as [-> | ->]; [left|right; right]; reflexivity.
    + apply is_wr_In in Hw. destruct Hw as (m & Hm & Hk & Hww). cbn [ix_accounts build_create_mint tx_metas] in Hm.
      destruct Hm as [<-|[<-|[<-|[<-|[<-|[]]]]]]; cbn [meta_w meta_r i_key i_writable] in Hk, Hww; try discriminate Hww;
        [right; left|right; right]; symmetry; exact Hk.
Qed.
Lemma create_signs e payer w b u wtp idem n1 n2 k : must_sign e payer (create_ixs payer w b u wtp idem n1 n2) k = true -> In k [payer].
Proof.
  unfold must_sign. intro H. apply orb_true_iff in H. destruct H as [H|H]; [left; symmetry; apply pk_eqb_eq; exact H|].
  apply existsb_exists in H. destruct H as (ix & Hi & Hw). unfold create_ixs in Hi. apply in_app_or in Hi. destruct Hi as [Hi|Hi].
  - rewrite (in_fund_sig e _ _ _ _ _ Hi Hw). left. reflexivity.
  - apply in_app_or in Hi. destruct Hi as [Hi|[<-|[]]].
    + rewrite (in_fund_sig e _ _ _ _ _ Hi Hw). left. reflexivity.
    + apply is_sig_In in Hw. destruct Hw as (m & Hm & Hk & Hww). cbn [ix_accounts build_create_mint tx_metas] in Hm.
      destruct Hm as [<-|[<-|[<-|[<-|[<-|[]]]]]]; cbn [meta_w meta_r i_key i_signer] in Hk, Hww; discriminate Hww.
Qed.
(** The two transfers that come first. *)
Lemma create_funds e payer w b u wtp idem n1 n2 l :
  a_owner (l payer) = system_id -> a_data (l payer) = DRaw [] -> n1 + n2 <= a_lamports (l payer) -> payer <> w -> payer <> b -> w <> b ->
  a_lamports (l w) + n1 < two64 -> a_lamports (l b) + n2 < two64 ->
  exists l1, run_ixs e payer (create_ixs payer w b u wtp idem n1 n2) (create_ixs payer w b u wtp idem n1 n2) l = run_ix e payer (create_ixs payer w b u wtp idem n1 n2) (TxTokenWrap (build_create_mint tw_id w b u wtp idem)) l1 /\
    l1 payer = mkAcc (a_lamports (l payer) - (n1 + n2)) (DRaw []) system_id /\
    l1 w = mkAcc (a_lamports (l w) + n1) (a_data (l w)) (a_owner (l w)) /\
    l1 b = mkAcc (a_lamports (l b) + n2) (a_data (l b)) (a_owner (l b)) /\
    forall k, k <> payer -> k <> w -> k <> b -> l1 k = l k.
Proof.
  intros Ho Hd Hn N1 N2 N3 B1 B2.
  assert (Nb1 : b <> payer) by (intro Hc; apply N2; symmetry; exact Hc). assert (Nb2 : b <> w) by (intro Hc; apply N3; symmetry; exact Hc).
  destruct (run_fund e payer (create_ixs payer w b u wtp idem n1 n2) payer w n1 l Ho Hd) as (l1 & H1 & P1 & W1 & F1); [lia|exact N1|exact B1|].
  destruct (run_fund e payer (create_ixs payer w b u wtp idem n1 n2) payer b n2 l1) as (l2 & H2 & P2 & W2 & F2).
  - rewrite P1. reflexivity.
  - rewrite P1. reflexivity.
  - rewrite P1. cbn [a_lamports]. lia.
  - exact N2.
  - rewrite (F1 b Nb1 Nb2). exact B2.
  - exists l2. assert (E : run_ixs e payer (create_ixs payer w b u wtp idem n1 n2) (create_ixs payer w b u wtp idem n1 n2) l = run_ix e payer (create_ixs payer w b u wtp idem n1 n2) (TxTokenWrap (build_create_mint tw_id w b u wtp idem)) l2).
    { unfold create_ixs at 2. rewrite run_ixs_app, H1. cbn [bind]. rewrite run_ixs_app, H2. cbn [bind]. cbn [run_ixs].
      destruct (run_ix e payer (create_ixs payer w b u wtp idem n1 n2) _ l2); reflexivity. }
    split; [exact E|]. split.
    { rewrite P2, P1. cbn [a_lamports]. f_equal. lia. }
    split.
    { rewrite F2; [exact W1|intro Hc; apply N1; symmetry; exact Hc|exact N3]. }
    split.
    { rewrite W2, (F1 b Nb1 Nb2). reflexivity. }
    intros k K1 K2 K3. rewrite F2 by assumption. apply F1; assumption.
Qed.

