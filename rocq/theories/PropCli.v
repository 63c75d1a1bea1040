(** * PropCli.v — C39 and C40: transactions, and the create-mint command. *)
From Verif Require Import Base Codec State Pda TokenProg Cpi Ata Meta Processor Builders Cli Tac PdaProofs ProcProofs Spec HistorySpec CliSpec CloseProofs SpecLemmas
  PropCreate CliProofs CliCreate.

(** ** C39.  A transaction is all or nothing: if it is refused, at most the fee was charged; if it is accepted, every
    signature its instructions ask for was there. *)
Theorem C39_atomic : forall e fee t l l' err,
  refused e fee t l l' err ->
  l' = l \/ (paid l l' (tr_payer t) fee /\ only_changed l l' [tr_payer t]).
Proof.
  intros e fee t l l' err H. destruct (send_cases _ _ _ _ _ _ H) as [[-> _]|(Ho & Hd & Hf & _ & [[-> _]|[Hr _]])].
  - left. reflexivity.
  - right. apply charge_paid. exact Hf.
  - discriminate Hr.
Qed.
Theorem C39_signatures : forall e fee t l l' ix k,
  accepted e fee t l l' -> k = tr_payer t \/ (In ix (tr_ixs t) /\ signed (ix_accounts e ix) k) -> In k (tr_signed t).
Proof.
  intros e fee t l l' ix k H Hk. destruct (send_cases _ _ _ _ _ _ H) as [[_ [err Hr]]|(_ & _ & _ & Hs & _)]; [discriminate Hr|].
  apply Hs. unfold must_sign. apply orb_true_iff. destruct Hk as [-> |[Hi Hk]].
  - left. apply pk_eqb_refl.
  - right. apply existsb_exists. exists ix. split; [exact Hi|]. apply signed_is_sig. exact Hk.
Qed.
(** Whatever happens to a transaction, the ledger it leaves is one of those the history theorems speak about. *)
Theorem C39_reachable : forall e0 e fee t l l' r,
  reachable e0 l -> lawful e0 e -> possible t -> send e fee t l = (l', r) -> reachable e0 l'.
Proof.
  intros e0 e fee t l l' r R L [P1 P2] H. destruct (send_cases _ _ _ _ _ _ H) as [[-> _]|(Ho & Hd & Hf & Hs & Hc)]; [exact R|].
  assert (R1 : reachable e0 (charge (tr_payer t) fee l)) by (apply (reach_step e0 AWorld l _ R); apply st_world; apply charge_world; exact Ho).
  destruct Hc as [[-> _]|[_ Hr]]; [exact R1|].
  apply (run_ixs_reach e0 e (tr_payer t) (tr_ixs t) (tr_ixs t) (charge (tr_payer t) fee l) l' R1 L); [|exact P2|exact Hr].
  intros k Hk. apply P1. apply Hs. exact Hk.
Qed.

(** Every transaction of the client is one of these: it needs no signature but the payer's and those handed to it, and
    every signature it carries was. *)
Lemma signs_in ss k : signs ss k = true -> exists s, In s ss /\ sg_key s = k /\ sg_signs s = true.
Proof.
  unfold signs. enough (G : forall acc, fold_left (fun a s => if pk_eqb (sg_key s) k then sg_signs s else a) ss acc = true ->
    acc = true \/ exists s, In s ss /\ sg_key s = k /\ sg_signs s = true).
  { intro H. destruct (G false H) as [H1|H1]; [discriminate H1|exact H1]. }
  induction ss as [|s r IH]; intros acc H; [left; exact H|]. cbn [fold_left] in H. destruct (IH _ H) as [H1|(x & H1 & H2)].
  - destruct (pk_eqb (sg_key s) k) eqn:E; [|left; exact H1]. right. exists s. apply pk_eqb_eq in E. split; [left; reflexivity|split; [exact E|exact H1]].
  - right. exists x. split; [right; exact H1|exact H2].
Qed.
Lemma partial_sign_inv e payer ixs ss t :
  partial_sign e payer ixs ss = Ok t -> tr_payer t = payer /\ tr_ixs t = ixs /\ (forall s, In s ss -> must_sign e payer ixs (sg_key s) = true) /\
  forall k, In k (tr_signed t) -> exists s, In s ss /\ sg_key s = k /\ sg_signs s = true.
Proof.
  unfold partial_sign. intro H. apply bind_ok in H. destruct H as ([] & E & H). apply guard_ok in E. injection H as <-. cbn [tr_payer tr_ixs tr_signed].
  split; [reflexivity|]. split; [reflexivity|]. split; [exact (proj1 (forallb_forall _ _) E)|].
  intros k Hk. apply filter_In in Hk. destruct Hk as [_ Hk]. exact (signs_in ss k Hk).
Qed.
Lemma tx_signers_in s payer a ms ps : In s (tx_signers payer a ms ps) -> s = payer \/ s = a \/ In s (ms ++ ps).
Proof.
  unfold tx_signers. intro H. apply in_app_or in H. destruct H as [[<-|[]]|H]; [left; reflexivity|].
  apply in_app_or in H. destruct H as [H|H]; [|right; right; exact H].
  destruct (negb _ && _) in H; [|destruct H]. destruct H as [<-|[]]. right. left. reflexivity.
Qed.
Ltac run_cli H := repeat (lazymatch type of H with bind _ _ = _ => apply bind_ok in H; destruct H as (? & _ & H) | _ => progress cbv zeta in H end).
Lemma client_shape e payer c l t :
  transaction_of e payer c l = Ok (Some t) ->
  tr_payer t = payer /\
  (forall k, In k (tr_signed t) -> k = payer \/ exists s, In s (signers_of c) /\ sg_key s = k /\ sg_signs s = true) /\
  (forall ix, In ix (tr_ixs t) -> match ix with
     | TxTransfer from _ _ => from = payer | TxAssociated from _ _ p => from = payer /\ spl_or_t22 p | TxTokenWrap i => tx_prog i = tw_id end).
Proof.
  intro H. destruct c as [u wtp i|u wtp i|x|x|u d wtp|u s p|u s p]; cbn [transaction_of] in H.
  - destruct (cli_create_mint e payer u wtp i l) as [t1|err] eqn:E; cbn [some] in H; [|discriminate H]. injection H as ->. unfold cli_create_mint in E. run_cli E.
    injection E as <-. cbn [tr_payer tr_ixs tr_signed]. split; [reflexivity|]. split; [intros k [<-|[]]; left; reflexivity|].
    intros ix Hix. unfold fund in Hix. apply in_app_or in Hix. destruct Hix as [Hix|Hix].
    { destruct (0 <? _) in Hix; [|destruct Hix]. destruct Hix as [<-|[]]. reflexivity. }
    apply in_app_or in Hix. destruct Hix as [Hix|Hix].
    { destruct (0 <? _) in Hix; [|destruct Hix]. destruct Hix as [<-|[]]. reflexivity. }
    destruct Hix as [<-|[]]. reflexivity.
  - unfold cli_create_escrow in H. apply bind_ok in H. destruct H as (q0 & _ & H). apply bind_ok in H. destruct H as ([] & Ea & H).
    apply bind_ok in H. destruct H as (utp & Eo & H). apply bind_ok in H. destruct H as (w & _ & H). apply bind_ok in H. destruct H as (a & _ & H).
    apply bind_ok in H. destruct H as (esc & _ & H). destruct (get_account l esc) as [acc|err]; [destruct i; discriminate H|]. injection H as <-.
    cbn [tr_payer tr_ixs tr_signed]. split; [reflexivity|]. split; [intros k [<-|[]]; left; reflexivity|]. intros ix [<-|[]]. split; [reflexivity|].
    unfold assert_mint_account in Ea. apply bind_ok in Ea. destruct Ea as (acc & E1 & Ea). apply bind_ok in Ea. destruct Ea as ([] & E2 & _). apply guard_ok in E2.
    unfold get_account_owner in Eo. rewrite E1 in Eo. cbn [bind] in Eo. injection Eo as <-. apply orb_true_iff in E2.
    destruct E2 as [E2|E2]; apply pk_eqb_eq in E2; [left|right]; exact E2.
  - destruct (cli_wrap e payer x l) as [t1|err] eqn:E; cbn [some] in H; [|discriminate H]. injection H as ->. unfold cli_wrap in E. run_cli E.
    apply partial_sign_inv in E. destruct E as (E1 & E2 & _ & E3). split; [exact E1|]. split.
    + intros k Hk. destruct (E3 k Hk) as (s & Hs & H1 & H2). apply tx_signers_in in Hs. destruct Hs as [-> |[-> |Hs]].
      * left. symmetry. exact H1.
      * cbn [signers_of]. destruct (wa_authority x) as [sg|]; [|left; symmetry; exact H1]. right. exists sg. split; [left; reflexivity|split; [exact H1|exact H2]].
      * right. exists s. split; [|split; [exact H1|exact H2]]. cbn [signers_of]. apply in_or_app. right. exact Hs.
    + rewrite E2. intros ix [<-|[]]. reflexivity.
  - destruct (cli_unwrap e payer x l) as [t1|err] eqn:E; cbn [some] in H; [|discriminate H]. injection H as ->. unfold cli_unwrap in E. run_cli E.
    apply partial_sign_inv in E. destruct E as (E1 & E2 & _ & E3). split; [exact E1|]. split.
    + intros k Hk. destruct (E3 k Hk) as (s & Hs & H1 & H2). apply tx_signers_in in Hs. destruct Hs as [-> |[-> |Hs]].
      * left. symmetry. exact H1.
      * cbn [signers_of]. destruct (ua_authority x) as [sg|]; [|left; symmetry; exact H1]. right. exists sg. split; [left; reflexivity|split; [exact H1|exact H2]].
      * right. exists s. split; [|split; [exact H1|exact H2]]. cbn [signers_of]. apply in_or_app. right. exact Hs.
    + rewrite E2. intros ix [<-|[]]. reflexivity.
  - destruct (cli_close_stuck_escrow e payer u d wtp l) as [t1|err] eqn:E; cbn [some] in H; [|discriminate H]. injection H as ->. unfold cli_close_stuck_escrow in E. run_cli E.
    injection E as <-. cbn [tr_payer tr_ixs tr_signed]. split; [reflexivity|]. split; [intros k [<-|[]]; left; reflexivity|]. intros ix [<-|[]]. reflexivity.
  - destruct (cli_sync_to_token_2022 e payer u s p l) as [t1|err] eqn:E; cbn [some] in H; [|discriminate H]. injection H as ->. unfold cli_sync_to_token_2022 in E. run_cli E.
    injection E as <-. cbn [tr_payer tr_ixs tr_signed]. split; [reflexivity|]. split; [intros k [<-|[]]; left; reflexivity|]. intros ix [<-|[]]. reflexivity.
  - destruct (cli_sync_to_spl_token e payer u s p l) as [t1|err] eqn:E; cbn [some] in H; [|discriminate H]. injection H as ->. unfold cli_sync_to_spl_token in E. run_cli E.
    injection E as <-. cbn [tr_payer tr_ixs tr_signed]. split; [reflexivity|]. split; [intros k [<-|[]]; left; reflexivity|]. intros ix [<-|[]]. reflexivity.
Qed.
Theorem C39_client : forall e payer c l t,
  is_tw_pda payer = false -> (forall s, In s (signers_of c) -> sg_signs s = true -> is_tw_pda (sg_key s) = false) ->
  transaction_of e payer c l = Ok (Some t) ->
  possible t /\ tr_payer t = payer /\
  forall k, In k (tr_signed t) -> k = payer \/ exists s, In s (signers_of c) /\ sg_key s = k /\ sg_signs s = true.
Proof.
  intros e payer c l t Hp Hs H. destruct (client_shape _ _ _ _ _ H) as (H1 & H2 & H3). split; [split|split; [exact H1|exact H2]].
  - intros k Hk. destruct (H2 k Hk) as [-> |(s & S1 & <- & S3)]; [exact Hp|exact (Hs s S1 S3)].
  - intros ix Hix. specialize (H3 ix Hix). destruct ix; [exact I|exact (proj2 H3)|exact H3].
Qed.

(** ** C40.  create-mint: if the mint exists and the payer can afford it, the command creates the wrapped mint and its
    backpointer as C05 promises, whatever lamports their addresses already hold; the payer pays the fee and the
    missing rent, not a lamport more; nothing else changes. *)
Lemma create_aux : forall e fee payer u wtp idempotent l mu size w b cost,
  spl_or_t22 wtp -> addresses_exist e u wtp -> spl_or_t22 (a_owner (l u)) -> mint_data l u mu -> promised_size wtp size ->
  w = wrapped_mint_of e u wtp -> b = backpointer_of e w -> unallocated l w -> unallocated l b -> wallet l payer ->
  e_rent e size < two64 -> e_rent e 32 < two64 -> lamports l w < two64 -> lamports l b < two64 ->
  cost = (e_rent e size - lamports l w) + (e_rent e 32 - lamports l b) -> fee + cost + e_rent e 0 <= lamports l payer ->
  exists t l' exts,
    cli_create_mint e payer u wtp idempotent l = Ok t /\ accepted e fee t l l' /\ promised_extensions wtp w (authority_of e w) exts /\
    l' w = mkAcc (N.max (lamports l w) (e_rent e size))
             (DMint (mkMint (Some (authority_of e w)) 0 (m_decimals mu) true (m_freeze mu) exts size)) wtp /\
    l' b = mkAcc (N.max (lamports l b) (e_rent e 32)) (DKey u) tw_id /\
    paid l l' payer (fee + cost) /\ only_changed l l' [payer; w; b].
Proof.
  intros e fee payer u wtp idem l mu size w b cost Hp Ha Hu Hm Hsz Ew Eb Uw Ub (Wo & Wd & Wt & Wa) R1 R2 L1 L2 Ec Hf.
  pose proof Ha as (D1 & D2 & D3). pose proof (cli_create_mint_eval e payer u wtp idem l size Hp D1 D3 Hsz) as Hcli.
  rewrite <- Ew, <- Eb in Hcli. set (n1 := e_rent e size - lamports l w) in *. set (n2 := e_rent e 32 - lamports l b) in *.
  change (fund payer w n1 ++ fund payer b n2 ++ [TxTokenWrap (build_create_mint tw_id w b u wtp idem)]) with (create_ixs payer w b u wtp idem n1 n2) in Hcli.
  assert (Tw : is_tw_pda w = true) by (rewrite Ew; apply is_tw_pda_wrapped).
  assert (Tb : is_tw_pda b = true) by (rewrite Eb; apply is_tw_pda_backpointer).
  assert (N1 : payer <> w) by (intro Hc; rewrite Hc, Tw in Wt; discriminate Wt).
  assert (N2 : payer <> b) by (intro Hc; rewrite Hc, Tb in Wt; discriminate Wt).
  assert (N3 : w <> b) by (rewrite Ew, Eb; apply wrapped_neq_backpointer).
  assert (Nu1 : u <> w) by (rewrite Ew; intro Hc; symmetry in Hc; exact (wrapped_neq_unwrapped e u wtp Hc)).
  assert (Nu2 : u <> b) by (rewrite Eb, Ew; intro Hc; symmetry in Hc; exact (backpointer_neq_unwrapped e u wtp Hc)).
  assert (Nu3 : u <> payer) by (intro Hc; rewrite <- Hc in Wo; rewrite Wo in Hu; destruct Hu as [Hu|Hu]; discriminate Hu).
  set (l0 := charge payer fee l).
  assert (C0 : l0 payer = mkAcc (lamports l payer - fee) (DRaw []) system_id).
  { unfold l0, charge. rewrite upd_same. unfold with_lamports. rewrite Wo, Wd. reflexivity. }
  assert (C1 : forall k, k <> payer -> l0 k = l k) by (intros k Hk; unfold l0, charge; apply upd_other; intro Hc; apply Hk; symmetry; exact Hc).
  assert (Nw1 : w <> payer) by (intro Hc; apply N1; symmetry; exact Hc). assert (Nb1 : b <> payer) by (intro Hc; apply N2; symmetry; exact Hc).
  destruct (create_funds e payer w b u wtp idem n1 n2 l0) as (l1 & Hrun & P1 & W1 & B1 & F1).
  { rewrite C0. reflexivity. } { rewrite C0. reflexivity. } { rewrite C0. cbn [a_lamports]. lia. }
  { exact N1. } { exact N2. } { exact N3. }
  { rewrite (C1 w Nw1). unfold n1, lamports in *. lia. } { rewrite (C1 b Nb1). unfold n2, lamports in *. lia. }
  rewrite C0 in P1. cbn [a_lamports] in P1. rewrite (C1 w Nw1) in W1. rewrite (C1 b Nb1) in B1.
  destruct Uw as [Uw1 Uw2]. destruct Ub as [Ub1 Ub2]. rewrite Uw1, Uw2 in W1. rewrite Ub1, Ub2 in B1.
  assert (U1 : l1 u = l u) by (rewrite (F1 u Nu3 Nu1 Nu2); apply C1; exact Nu3).
  set (all := create_ixs payer w b u wtp idem n1 n2) in *. set (ix := build_create_mint tw_id w b u wtp idem) in *.
  set (acc := raised e payer all (tx_metas ix)).
  assert (Hk : keys_are acc [w; b; u; system_id; wtp]) by (apply raised_keys_are; exists []; reflexivity).
  assert (Hin : In (TxTokenWrap ix) all) by apply create_in.
  assert (Hw : writable acc w) by (apply raised_writable; [exact Hin|]; exists (meta_w w false); split; [left; reflexivity|split; reflexivity]).
  assert (Hb : writable acc b) by (apply raised_writable; [exact Hin|]; exists (meta_w b false); split; [right; left; reflexivity|split; reflexivity]).
  assert (M1 : mint_data l1 u mu) by (destruct Hm as [Hm1 Hm2]; split; [rewrite U1; exact Hm1|exact Hm2]).
  assert (Lw : lamports l1 w = N.max (lamports l w) (e_rent e size)) by (unfold lamports at 1; rewrite W1; cbn [a_lamports]; unfold n1, lamports; lia).
  assert (Lb : lamports l1 b = N.max (lamports l b) (e_rent e 32)) by (unfold lamports at 1; rewrite B1; cbn [a_lamports]; unfold n2, lamports; lia).
  destruct (C06_create_mint_iff e acc idem l1 w b u wtp Hk Hw Hb Ha Ew Eb (ex_intro _ mu M1)) with (size := size) as [[_ Hlive] _].
  { rewrite U1. exact Hu. } { exact Hp. } { split; rewrite W1; reflexivity. } { split; rewrite B1; reflexivity. } { exact Hsz. }
  destruct Hlive as [l2 H2]. { rewrite Lw, Lb. lia. }
  destruct (C05_create_mint e acc idem l1 l2 w b u system_id wtp Hk H2) as (_ & _ & _ & _ & _ & _ & _ & _ & mu' & exts & size' & Hmu' & Hx & Hs' & _ & _ & Hlw & Hlb & Hfr).
  { unfold no_data. rewrite W1. reflexivity. } { unfold no_data. rewrite B1. reflexivity. }
  assert (mu' = mu) by (destruct M1 as [M1 _]; destruct Hmu' as [M2 _]; rewrite M1 in M2; injection M2 as <-; reflexivity). subst mu'.
  assert (size' = size).
  { destruct Hsz as [[Q1 ->]|[Q1 ->]]; destruct Hs' as [[Q2 ->]|[Q2 ->]]; try reflexivity; rewrite Q1 in Q2; discriminate Q2. }
  subst size'. rewrite Lw in Hlw. rewrite Lb in Hlb.
  assert (P2 : l2 payer = mkAcc (lamports l payer - fee - (n1 + n2)) (DRaw []) system_id) by (rewrite (Hfr payer N1 N2); exact P1).
  exists (mkTx payer all [payer]), l2, exts. split; [exact Hcli|]. split; [|split; [exact Hx|split; [exact Hlw|split; [exact Hlb|split]]]].
  - apply send_live.
    + intros k Hks. exact (create_signs e payer w b u wtp idem n1 n2 k Hks).
    + exact Wo. + exact Wd. + unfold lamports in Hf. lia.
    + fold l0. rewrite Hrun. exact H2.
    + fold l0. apply rents_ok_intro. intros k Hkw. apply rent_ok_enough.
      destruct (create_writes e payer w b u wtp idem n1 n2 k Hkw) as [-> |[-> | ->]].
      * rewrite P2. cbn [a_lamports a_data data_len length N.of_nat]. lia.
      * rewrite Hlw. cbn [a_lamports a_data data_len m_len]. lia.
      * rewrite Hlb. cbn [a_lamports a_data data_len]. lia.
  - unfold paid, lamports at 2. rewrite P2, Wo, Wd. cbn [a_lamports a_data a_owner]. split; [lia|split; reflexivity].
  - intros k Hk2. assert (K1 : k <> payer) by (intro Hc; apply Hk2; left; symmetry; exact Hc).
    assert (K2 : k <> w) by (intro Hc; apply Hk2; right; left; symmetry; exact Hc).
    assert (K3 : k <> b) by (intro Hc; apply Hk2; right; right; left; symmetry; exact Hc).
    rewrite (Hfr k K2 K3), (F1 k K1 K2 K3). apply C1. exact K1.
Qed.
Theorem C40_creates : forall e fee payer u wtp idempotent l mu size,
  spl_or_t22 wtp -> addresses_exist e u wtp -> spl_or_t22 (a_owner (l u)) -> mint_data l u mu -> promised_size wtp size ->
  let w := wrapped_mint_of e u wtp in let b := backpointer_of e w in
  unallocated l w -> unallocated l b -> wallet l payer ->
  e_rent e size < two64 -> e_rent e 32 < two64 -> lamports l w < two64 -> lamports l b < two64 ->
  let cost := (e_rent e size - lamports l w) + (e_rent e 32 - lamports l b) in fee + cost + e_rent e 0 <= lamports l payer ->
  exists t l' exts,
    cli_create_mint e payer u wtp idempotent l = Ok t /\ accepted e fee t l l' /\ promised_extensions wtp w (authority_of e w) exts /\
    l' w = mkAcc (N.max (lamports l w) (e_rent e size))
             (DMint (mkMint (Some (authority_of e w)) 0 (m_decimals mu) true (m_freeze mu) exts size)) wtp /\
    l' b = mkAcc (N.max (lamports l b) (e_rent e 32)) (DKey u) tw_id /\
    paid l l' payer (fee + cost) /\ only_changed l l' [payer; w; b].
Proof.
  intros e fee payer u wtp idempotent l mu size Hp Ha Hu Hm Hsz w b Uw Ub Hw R1 R2 L1 L2 cost Hf.
  exact (create_aux e fee payer u wtp idempotent l mu size w b cost Hp Ha Hu Hm Hsz eq_refl eq_refl Uw Ub Hw R1 R2 L1 L2 eq_refl Hf).
Qed.

(** Run again later (the two accounts exist, rent paid): with --idempotent it succeeds and costs only the fee; without,
    it is refused, and costs only the fee. *)
Lemma again_aux : forall e fee payer u wtp idempotent l size w b,
  spl_or_t22 wtp -> addresses_exist e u wtp -> spl_or_t22 (a_owner (l u)) -> promised_size wtp size ->
  w = wrapped_mint_of e u wtp -> b = backpointer_of e w -> a_owner (l w) = wtp -> has_data l w -> a_owner (l b) = tw_id ->
  wallet l payer -> e_rent e size <= lamports l w -> e_rent e 32 <= lamports l b -> fee + e_rent e 0 <= lamports l payer ->
  exists t l', cli_create_mint e payer u wtp idempotent l = Ok t /\ paid l l' payer fee /\ only_changed l l' [payer] /\
    (if idempotent then accepted e fee t l l' else refused e fee t l l' EAccountAlreadyInitialized).
Proof.
  intros e fee payer u wtp idem l size w b Hp Ha Hu Hsz Ew Eb Ow Hw Ob (Wo & Wd & Wt & Wa) R1 R2 Hf.
  pose proof Ha as (D1 & D2 & D3). pose proof (cli_create_mint_eval e payer u wtp idem l size Hp D1 D3 Hsz) as Hcli.
  rewrite <- Ew, <- Eb in Hcli.
  replace (e_rent e size - lamports l w) with 0 in Hcli by lia. replace (e_rent e 32 - lamports l b) with 0 in Hcli by lia.
  change (fund payer w 0 ++ fund payer b 0 ++ [TxTokenWrap (build_create_mint tw_id w b u wtp idem)]) with (create_ixs payer w b u wtp idem 0 0) in Hcli.
  assert (Tw : is_tw_pda w = true) by (rewrite Ew; apply is_tw_pda_wrapped).
  assert (Tb : is_tw_pda b = true) by (rewrite Eb; apply is_tw_pda_backpointer).
  assert (N1 : w <> payer) by (intro Hc; rewrite <- Hc, Tw in Wt; discriminate Wt).
  assert (N2 : b <> payer) by (intro Hc; rewrite <- Hc, Tb in Wt; discriminate Wt).
  assert (Nu3 : u <> payer) by (intro Hc; rewrite <- Hc in Wo; rewrite Wo in Hu; destruct Hu as [Hu|Hu]; discriminate Hu).
  set (l0 := charge payer fee l).
  assert (C1 : forall k, k <> payer -> l0 k = l k) by (intros k Hk; unfold l0, charge; apply upd_other; intro Hc; apply Hk; symmetry; exact Hc).
  destruct (charge_paid payer fee l) as [HP HO]; [unfold lamports in Hf; lia|]. fold l0 in HP, HO.
  set (all := create_ixs payer w b u wtp idem 0 0) in *. set (ix := build_create_mint tw_id w b u wtp idem) in *.
  set (acc := raised e payer all (tx_metas ix)).
  assert (Hk : keys_are acc [w; b; u; system_id; wtp]) by (apply raised_keys_are; exists []; reflexivity).
  assert (Hrun : run_ixs e payer all all l0 = run_ix e payer all (TxTokenWrap ix) l0).
  { change all with ([TxTokenWrap ix]) at 2. cbn [run_ixs]. destruct (run_ix e payer all (TxTokenWrap ix) l0); reflexivity. }
  destruct (C07_exact e acc l0 w b u system_id wtp Hk Ha Ew Eb) as (E1 & E2 & _ & _).
  { rewrite (C1 u Nu3). exact Hu. } { left. unfold has_data. rewrite (C1 w N1). exact Hw. }
  exists (mkTx payer all [payer]), l0. split; [exact Hcli|]. split; [exact HP|]. split; [exact HO|].
  assert (Hsig : forall k, must_sign e payer all k = true -> In k [payer]) by (intros k Hks; exact (create_signs e payer w b u wtp idem 0 0 k Hks)).
  destruct idem.
  - apply send_live; [exact Hsig|exact Wo|exact Wd|unfold lamports in Hf; lia| |].
    + fold l0. rewrite Hrun. apply E2; [rewrite (C1 w N1); exact Ow|rewrite (C1 b N2); exact Ob].
    + fold l0. apply rents_ok_intro. intros k _. apply rent_ok_same; reflexivity.
  - unfold refused, send. cbn [tr_payer tr_ixs tr_signed]. cbv zeta. fold l0.
    pose proof (proj2 (signatures_cover e (mkTx payer all [payer])) Hsig) as Hc. cbn [tr_payer tr_ixs tr_signed] in Hc. rewrite Hc. cbn [negb].
    rewrite Wo, pk_eqb_refl, Wd. cbn [data_is_empty data_len length N.of_nat N.eqb andb].
    replace (fee <=? a_lamports (l payer)) with true by (symmetry; apply N.leb_le; unfold lamports in Hf; lia). cbn [andb].
    assert (Hro : rent_ok e (l payer) (l0 payer) = true).
    { apply rent_ok_enough. unfold l0, charge. rewrite upd_same. cbn [with_lamports a_lamports a_data]. rewrite Wd. cbn [data_len length N.of_nat]. unfold lamports in Hf. lia. }
    rewrite Hro. cbn [negb]. rewrite Hrun. change (run_ix e payer all (TxTokenWrap ix) l0) with (outcome e acc (CreateMint false) l0). rewrite E1. reflexivity.
Qed.
Theorem C40_again : forall e fee payer u wtp idempotent l size,
  spl_or_t22 wtp -> addresses_exist e u wtp -> spl_or_t22 (a_owner (l u)) -> promised_size wtp size ->
  let w := wrapped_mint_of e u wtp in let b := backpointer_of e w in
  a_owner (l w) = wtp -> has_data l w -> a_owner (l b) = tw_id ->
  wallet l payer -> e_rent e size <= lamports l w -> e_rent e 32 <= lamports l b -> fee + e_rent e 0 <= lamports l payer ->
  exists t l', cli_create_mint e payer u wtp idempotent l = Ok t /\ paid l l' payer fee /\ only_changed l l' [payer] /\
    (if idempotent then accepted e fee t l l' else refused e fee t l l' EAccountAlreadyInitialized).
Proof.
  intros e fee payer u wtp idempotent l size Hp Ha Hu Hsz w b Ow Hw Ob Hwal R1 R2 Hf.
  exact (again_aux e fee payer u wtp idempotent l size w b Hp Ha Hu Hsz eq_refl eq_refl Ow Hw Ob Hwal R1 R2 Hf).
Qed.
