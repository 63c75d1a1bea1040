(** * CliEscrow.v — lemmas about associated token accounts created by a transaction. *)
From Verif Require Import Base Codec State Pda TokenProg Cpi Ata Meta Processor Builders Cli Tac PdaProofs TokProofs ProcProofs Spec HistorySpec CliSpec CloseProofs SpecLemmas
  InvState InvHist EscProofs PropEscrow CliProofs CliCreate.

Definition ata_rent (e : env) (p : pubkey) (m : mint) : N := N.max 1 (e_rent e (tok_space (init_account_exts p m true))).
(** A fresh associated token account. *)
Definition fresh_ata (p wal mnt : pubkey) (m : mint) (t : tokacc) : Prop :=
  t_mint t = mnt /\ t_owner t = wal /\ t_delegate t = None /\ t_delegated t = 0 /\ t_close t = None /\ t_exts t = init_account_exts p m true /\
  t_state t = ext_default_state m /\ (is_native_mint p mnt = false -> t_amount t = 0 /\ t_native t = None).

Lemma ata_paid_live e payer wal mnt p l m k :
  token_program p -> mint_account l mnt p m -> (p = spl_token_id -> m_exts m = []) -> k = ata_of e wal mnt p -> unallocated l k ->
  a_owner (l payer) = system_id -> a_data (l payer) = DRaw [] -> payer <> k -> ata_rent e p m - lamports l k <= lamports l payer ->
  ata_rent e p m < two64 -> lamports l k < two64 ->
  exists l' t, ata_create_paid e payer wal mnt p l = Ok l' /\ fresh_ata p wal mnt m t /\
    l' payer = mkAcc (lamports l payer - (ata_rent e p m - lamports l k)) (DRaw []) system_id /\
    l' k = mkAcc (N.max (lamports l k) (ata_rent e p m)) (DTok t) p /\
    forall x, x <> payer -> x <> k -> l' x = l x.
Proof.
  intros T M X Ek Un Po Pd Np Hc R1 R2.
  assert (Hf : exists l1, (if ata_rent e p m - lamports l k =? 0 then Ok l else sys_transfer payer k (ata_rent e p m - lamports l k) l) = Ok l1 /\
     l1 payer = mkAcc (lamports l payer - (ata_rent e p m - lamports l k)) (DRaw []) system_id /\
     l1 k = mkAcc (N.max (lamports l k) (ata_rent e p m)) (DRaw []) system_id /\ forall x, x <> payer -> x <> k -> l1 x = l x).
  { destruct Un as [U1 U2]. destruct (ata_rent e p m - lamports l k =? 0) eqn:E.
    - apply N.eqb_eq in E. exists l. split; [reflexivity|]. rewrite E, N.sub_0_r. split; [unfold lamports; rewrite <- Po, <- Pd; destruct (l payer); reflexivity|].
      split; [|reflexivity]. replace (N.max (lamports l k) (ata_rent e p m)) with (lamports l k) by lia. unfold lamports. rewrite <- U1, <- U2. destruct (l k); reflexivity.
    - destruct (sys_transfer_live payer k (ata_rent e p m - lamports l k) l Po) as (l1 & H1 & H2 & H3 & H4).
      { rewrite Pd. reflexivity. } { exact Hc. } { exact Np. } { unfold lamports in *. lia. }
      exists l1. split; [exact H1|]. split; [rewrite H2, Po, Pd; reflexivity|]. split; [|exact H4]. rewrite H3, U1, U2. f_equal. unfold lamports in *. lia. }
  destruct Hf as (l1 & H1 & P1 & K1 & F1).
  assert (Nm : mnt <> payer). { destruct M as (Om & _). intro Hx. subst mnt. rewrite Po in Om. destruct T as [T|T]; rewrite T in Om; discriminate Om. }
  assert (Nk : mnt <> k). { intro Hx. subst k. symmetry in Hx. exact (ata_neq_mint e wal mnt p Hx). }
  pose proof (F1 mnt Nm Nk) as Em.
  assert (M1 : mint_account l1 mnt p m). { destruct M as (Om & Dm & Im). split; [rewrite Em; exact Om|split; [rewrite Em; exact Dm|exact Im]]. }
  destruct (ata_live e p wal mnt l1 m T M1 X) as [l' H2].
  { rewrite <- Ek. split; rewrite K1; reflexivity. } { rewrite <- Ek. unfold lamports. rewrite K1. cbn [a_lamports]. unfold ata_rent. lia. }
  destruct (ata_created _ _ _ _ _ _ H2) as (Fr & m' & t & Um & O & D & A1 & A2 & A3 & A4 & A5 & A6 & A7 & A8 & A9 & _ & La). rewrite <- Ek in *.
  assert (m' = m). { destruct M1 as (_ & Dm & Im). rewrite Dm, (unpack_mint_ok p m Im X) in Um. injection Um as <-. reflexivity. } subst m'.
  exists l', t. split; [|split; [|split; [|split]]].
  - unfold ata_create_paid. cbv zeta. rewrite <- Ek. rewrite bind_guard_true by (destruct Un as [_ U2]; rewrite U2; apply pk_eqb_refl).
    destruct M as (_ & Dm & Im). rewrite Dm, (unpack_mint_ok p m Im X). cbn [bind]. fold (ata_rent e p m).
    change (a_lamports (l k)) with (lamports l k). rewrite H1. cbn [bind]. exact H2.
  - split; [exact A1|]. split; [exact A2|]. split; [exact A3|]. split; [exact A9|]. split; [exact A4|]. split; [exact A5|]. split; [exact A8|].
    intro Nn. rewrite Nn in A6, A7. split; [exact A7|exact A6].
  - rewrite (Fr payer Np). exact P1.
  - rewrite K1 in La. cbn [a_lamports] in La. rewrite <- La, <- D, <- O. destruct (l' k); reflexivity.
  - intros x X1 X2. rewrite (Fr x X2). exact (F1 x X1 X2).
Qed.

(** A transaction that creates one associated token account. *)
Lemma associated_writes e payer wal mnt p k : may_write e payer [TxAssociated payer wal mnt p] k = true -> k = payer \/ k = ata_of e wal mnt p.
Proof.
  unfold may_write. intro H. apply orb_true_iff in H. destruct H as [H|H]; [left; apply pk_eqb_eq; exact H|].
  apply existsb_exists in H. destruct H as (ix & [<-|[]] & Hw). apply is_wr_In in Hw. destruct Hw as (m & Hm & Hk & Hww). cbn [ix_accounts] in Hm.
  destruct Hm as [<-|[<-|[<-|[<-|[<-|[<-|[]]]]]]]; cbn [meta_w meta_r i_key i_writable] in Hk, Hww; try discriminate Hww; [left|right]; symmetry; exact Hk.
Qed.
Lemma associated_signs e payer wal mnt p k : must_sign e payer [TxAssociated payer wal mnt p] k = true -> In k [payer].
Proof.
  unfold must_sign. intro H. apply orb_true_iff in H. destruct H as [H|H]; [left; symmetry; apply pk_eqb_eq; exact H|].
  apply existsb_exists in H. destruct H as (ix & [<-|[]] & Hw). apply is_sig_In in Hw. destruct Hw as (m & Hm & Hk & Hww). cbn [ix_accounts] in Hm.
  destruct Hm as [<-|[<-|[<-|[<-|[<-|[<-|[]]]]]]]; cbn [meta_w meta_r i_key i_signer] in Hk, Hww; try discriminate Hww. left. exact Hk.
Qed.
Lemma send_associated e fee payer wal mnt p l m k :
  token_program p -> mint_account l mnt p m -> (p = spl_token_id -> m_exts m = []) -> k = ata_of e wal mnt p -> unallocated l k ->
  a_owner (l payer) = system_id -> a_data (l payer) = DRaw [] -> payer <> k ->
  fee + (ata_rent e p m - lamports l k) + e_rent e 0 <= lamports l payer -> ata_rent e p m < two64 -> lamports l k < two64 ->
  exists l' t, send e fee (mkTx payer [TxAssociated payer wal mnt p] [payer]) l = (l', Ok tt) /\ fresh_ata p wal mnt m t /\
    paid l l' payer (fee + (ata_rent e p m - lamports l k)) /\
    l' k = mkAcc (N.max (lamports l k) (ata_rent e p m)) (DTok t) p /\ only_changed l l' [payer; k].
Proof.
  intros T M X Ek Un Po Pd Np Hc R1 R2. set (l0 := charge payer fee l).
  assert (C0 : l0 payer = mkAcc (lamports l payer - fee) (DRaw []) system_id).
  { unfold l0, charge. rewrite upd_same. unfold with_lamports. rewrite Po, Pd. reflexivity. }
  assert (C1 : forall x, x <> payer -> l0 x = l x) by (intros x Hk; unfold l0, charge; apply upd_other; intro Hx; apply Hk; symmetry; exact Hx).
  assert (Nk : k <> payer) by (intro Hx; apply Np; symmetry; exact Hx).
  assert (Nm : mnt <> payer). { destruct M as (Om & _). intro Hx. subst mnt. rewrite Po in Om. destruct T as [T|T]; rewrite T in Om; discriminate Om. }
  pose proof (C1 k Nk) as Ck. pose proof (C1 mnt Nm) as Cm.
  assert (Lk : lamports l0 k = lamports l k) by (unfold lamports; rewrite Ck; reflexivity).
  assert (Lp : lamports l0 payer = lamports l payer - fee) by (unfold lamports at 1; rewrite C0; reflexivity).
  destruct (ata_paid_live e payer wal mnt p l0 m k T) as (l' & t & H1 & H2 & H3 & H4 & H5).
  { destruct M as (Om & Dm & Im). split; [rewrite Cm; exact Om|split; [rewrite Cm; exact Dm|exact Im]]. } { exact X. } { exact Ek. }
  { destruct Un as [U1 U2]. split; rewrite Ck; assumption. } { rewrite C0. reflexivity. } { rewrite C0. reflexivity. } { exact Np. }
  { rewrite Lk, Lp. lia. } { exact R1. } { rewrite Lk. exact R2. }
  rewrite Lk, ?Lp in *. exists l', t. split; [|split; [exact H2|split; [|split; [exact H4|]]]].
  - apply send_live; [apply associated_signs|exact Po|exact Pd|unfold lamports in Hc; lia| |].
    + cbn [run_ixs run_ix]. fold l0. rewrite H1. reflexivity.
    + fold l0. apply rents_ok_intro. intros x Hx. apply rent_ok_enough. destruct (associated_writes e payer wal mnt p x Hx) as [-> | ->].
      * rewrite H3. cbn [a_lamports a_data data_len length N.of_nat]. lia.
      * rewrite <- Ek, H4. cbn [a_lamports a_data data_len]. destruct H2 as (_ & _ & _ & _ & _ & -> & _). unfold ata_rent. lia.
  - unfold paid, lamports at 2. rewrite H3, Po, Pd. cbn [a_lamports a_data a_owner]. split; [lia|split; reflexivity].
  - intros x Hx. assert (X1 : x <> payer) by (intro Hy; apply Hx; left; symmetry; exact Hy).
    assert (X2 : x <> k) by (intro Hy; apply Hx; right; left; symmetry; exact Hy). rewrite (H5 x X1 X2). apply C1. exact X1.
Qed.
