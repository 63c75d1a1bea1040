(** * TokProofs.v — inversion lemmas for the token programs. *)
From Verif Require Import Base Codec State Pda TokenProg Tac PdaProofs.

(** ** Primitive writes *)
Lemma set_data_inv prog ms k d l l' :
  set_data prog ms k d l = Ok l' ->
  is_wr ms k = true /\ a_owner (l k) = prog /\ l' = upd l k (with_data d (l k)).
Proof. unfold set_data; intro H; inv_ok; auto. Qed.
Lemma set_data_ok prog ms k d l :
  is_wr ms k = true -> a_owner (l k) = prog ->
  set_data prog ms k d l = Ok (upd l k (with_data d (l k))).
Proof. intros H1 H2; unfold set_data. rewrite H1, H2, pk_eqb_refl. reflexivity. Qed.

Lemma move_lamports_inv prog ms from to n l l' :
  move_lamports prog ms from to n l = Ok l' ->
  is_wr ms from = true /\ is_wr ms to = true /\ a_owner (l from) = prog /\ n <= a_lamports (l from) /\
  l' = (let l1 := upd l from (with_lamports (a_lamports (l from) - n) (l from)) in
        upd l1 to (with_lamports (a_lamports (l1 to) + n) (l1 to))).
Proof. unfold move_lamports; intro H; inv_ok; auto. Qed.

Lemma delete_account_inv prog ms k l l' :
  delete_account prog ms k l = Ok l' ->
  is_wr ms k = true /\ a_owner (l k) = prog /\ l' = upd l k (mkAcc (a_lamports (l k)) DEmpty system_id).
Proof. unfold delete_account; intro H; inv_ok; auto. Qed.

Lemma write_mint_exts_inv e prog ms k m x l l' :
  write_mint_exts e prog ms k m x l = Ok l' ->
  is_wr ms k = true /\ a_owner (l k) = prog /\
  l' = upd l k (with_data (DMint (set_mexts x (mint_space x) m)) (l k)).
Proof. unfold write_mint_exts; intro H; inv_ok. eapply set_data_inv; eassumption. Qed.

(** ** Unpacking *)
Lemma pod_unpack_tok_inv d t : pod_unpack_tok d = Ok t -> d = DTok t /\ t_state t <> Uninitialized.
Proof.
  unfold pod_unpack_tok. destruct d as [l| | |t'| |]; try discriminate.
  - destruct (all_zero l && _); discriminate.
  - destruct (acct_state_eqb (t_state t') Uninitialized) eqn:E; [discriminate|].
    intro H; inversion H; subst. split; [reflexivity|]. intro H'; rewrite H' in E; discriminate.
Qed.
Lemma pod_unpack_tok_ok t : t_state t <> Uninitialized -> pod_unpack_tok (DTok t) = Ok t.
Proof. intro H; simpl. destruct (t_state t); try reflexivity. congruence. Qed.
Lemma pod_unpack_mint_inv d m : pod_unpack_mint d = Ok m -> d = DMint m /\ m_init m = true.
Proof.
  unfold pod_unpack_mint. destruct d as [l| |m'| | |]; try discriminate.
  - destruct (all_zero l && _); discriminate.
  - destruct (m_init m') eqn:E; [|discriminate]. intro H; inversion H; subst; auto.
Qed.
Lemma pod_unpack_mint_ok m : m_init m = true -> pod_unpack_mint (DMint m) = Ok m.
Proof. intro H; simpl; now rewrite H. Qed.
Lemma is_nil_eq {A} (l : list A) : is_nil l = true <-> l = [].
Proof. destruct l; simpl; split; congruence. Qed.
Lemma unpack_tok_inv prog d t :
  unpack_tok prog d = Ok t ->
  d = DTok t /\ t_state t <> Uninitialized /\ (prog = spl_token_id -> t_exts t = []).
Proof.
  unfold unpack_tok; intro H; inv_ok. apply pod_unpack_tok_inv in E. subst. destruct E as [-> Hs].
  split; [reflexivity|]. split; [exact Hs|]. intros ->. rewrite pk_eqb_refl in E0. simpl in E0.
  now apply is_nil_eq.
Qed.
Lemma unpack_tok_ok prog t :
  t_state t <> Uninitialized -> (prog = spl_token_id -> t_exts t = []) -> unpack_tok prog (DTok t) = Ok t.
Proof.
  intros H1 H2. unfold unpack_tok. rewrite pod_unpack_tok_ok by exact H1. cbn [bind].
  destruct (pk_eqb prog spl_token_id) eqn:E; simpl; [|reflexivity].
  apply pk_eqb_eq in E. rewrite (H2 E). reflexivity.
Qed.
Lemma unpack_mint_inv prog d m :
  unpack_mint prog d = Ok m ->
  d = DMint m /\ m_init m = true /\ (prog = spl_token_id -> m_exts m = []).
Proof.
  unfold unpack_mint; intro H; inv_ok. apply pod_unpack_mint_inv in E. subst. destruct E as [-> Hs].
  split; [reflexivity|]. split; [exact Hs|]. intros ->. rewrite pk_eqb_refl in E0. simpl in E0.
  now apply is_nil_eq.
Qed.
Lemma unpack_mint_ok prog m :
  m_init m = true -> (prog = spl_token_id -> m_exts m = []) -> unpack_mint prog (DMint m) = Ok m.
Proof.
  intros H1 H2. unfold unpack_mint. rewrite pod_unpack_mint_ok by exact H1. cbn [bind].
  destruct (pk_eqb prog spl_token_id) eqn:E; simpl; [|reflexivity].
  apply pk_eqb_eq in E. rewrite (H2 E). reflexivity.
Qed.
Lemma unpack_uninit_mint_inv d m :
  unpack_uninit_mint d = Ok m -> m_init m = false /\
  ((exists r, d = DRaw r /\ all_zero r = true /\ m = mkMint None 0 0 false None [] (N.of_nat (length r))) \/ d = DMint m).
Proof.
  unfold unpack_uninit_mint. destruct d as [r| |m'| | |]; try discriminate; intro H; inv_ok; subst.
  - split; [reflexivity|]. left. exists r. auto.
  - auto.
Qed.

(** ** Authorities *)

(** [k] consented: it signed itself, or it is a multisig account of the token program whose
    threshold is met by keys that signed. *)
Definition signed_for (prog : pubkey) (l : ledger) (sig : pubkey -> bool) (k : pubkey) : Prop :=
  sig k = true \/
  exists m, a_owner (l k) = prog /\ a_data (l k) = DMultisig m /\
            ms_m m <= N.of_nat (length (filter sig (ms_signers m))).

Lemma filter_length_le {A} (f g : A -> bool) l :
  (forall x, In x l -> f x = true -> g x = true) -> (length (filter f l) <= length (filter g l))%nat.
Proof.
  induction l as [|x l IH]; intro H; simpl; [lia|].
  specialize (IH (fun y Hy => H y (or_intror Hy))). specialize (H x (or_introl eq_refl)).
  destruct (f x); destruct (g x); simpl; try lia; try (specialize (H eq_refl); discriminate).
Qed.

Lemma validate_owner_inv prog l ms expected auth signers u :
  validate_owner prog l ms expected auth signers = Ok u ->
  expected = auth /\ signed_for prog l (is_sig ms) expected.
Proof.
  unfold validate_owner; intro H; inv_ok. subst expected. split; [reflexivity|].
  destruct (a_data (l auth)) as [| | | |m|] eqn:Ed; inv_ok; try (left; assumption).
  destruct (pk_eqb (a_owner (l auth)) prog) eqn:Eo; inv_ok; [|left; assumption].
  right. exists m. repeat split; auto.
  match goal with H1 : forallb _ _ = true, H2 : ms_m m <= _ |- _ =>
    rewrite forallb_forall in H1; unfold ms_count in H2; rename H1 into HF; rename H2 into HM end.
  etransitivity; [exact HM|].
  enough (length (filter (fun k => pk_mem k signers) (ms_signers m)) <= length (filter (is_sig ms) (ms_signers m)))%nat by lia.
  apply filter_length_le. intros x Hx1 Hx2. apply pk_mem_In in Hx2. specialize (HF x Hx2).
  apply orb_true_iff in HF. destruct HF as [HF|HF]; [|exact HF].
  apply negb_true_iff in HF. assert (pk_mem x (ms_signers m) = true) by (apply pk_mem_In; exact Hx1). congruence.
Qed.

(** A plain (non-multisig) authority that signed passes. *)
Lemma validate_owner_ok prog l ms auth signers :
  is_sig ms auth = true -> (forall m, a_data (l auth) = DMultisig m -> a_owner (l auth) <> prog) ->
  validate_owner prog l ms auth auth signers = Ok tt.
Proof.
  intros H1 H2. unfold validate_owner. rewrite pk_eqb_refl. cbn [guard bind].
  destruct (a_data (l auth)) as [| | | |m|]; try (apply guard_if_true; exact H1).
  specialize (H2 m eq_refl). apply pk_eqb_neq in H2. rewrite H2. apply guard_if_true; exact H1.
Qed.

(** Who consented to taking [amount] out of [t]? *)
Definition debit_consent (prog : pubkey) (l : ledger) (sig : pubkey -> bool) (t : tokacc) (m : mint) (amount : N) : Prop :=
  exists who, signed_for prog l sig who /\
    (who = t_owner t \/ (t_delegate t = Some who /\ amount <= t_delegated t) \/ ext_permanent_delegate m = Some who).

Lemma authorize_debit_inv prog l ms cpi t m auth signers amount self t1 :
  authorize_debit prog l ms cpi t m auth signers amount self = Ok t1 ->
  signed_for prog l (is_sig ms) auth /\
  ((ext_permanent_delegate m = Some auth /\ t1 = t) \/
   (t_delegate t = Some auth /\ amount <= t_delegated t /\
    t1 = if self then t else
         set_delegate (if t_delegated t - amount =? 0 then None else t_delegate t) (t_delegated t - amount) t) \/
   (auth = t_owner t /\ t1 = t /\ ext_permanent_delegate m <> Some auth /\ t_delegate t <> Some auth /\
    cpi && cpi_guard_locked t = false)).
Proof.
  unfold authorize_debit; intro H.
  destruct (opk_eqb (ext_permanent_delegate m) (Some auth)) eqn:E1.
  - inv_ok. subst. apply validate_owner_inv in E. split; [tauto|]. left. auto.
  - destruct (opk_eqb (t_delegate t) (Some auth)) eqn:E2.
    + inv_ok. apply validate_owner_inv in E. split; [tauto|]. right; left. repeat split; auto.
      destruct self; inv_ok; auto.
    + inv_ok. subst. apply validate_owner_inv in E. destruct E as [E E'].
      rewrite <- E in E1, E2 |- *. split; [exact E'|]. right; right.
      repeat split; auto.
      * intro X. rewrite <- X in E1. rewrite opk_eqb_refl in E1. discriminate.
      * intro X. rewrite <- X in E2. rewrite opk_eqb_refl in E2. discriminate.
Qed.
Lemma authorize_debit_consent prog l ms cpi t m auth signers amount self t1 :
  authorize_debit prog l ms cpi t m auth signers amount self = Ok t1 ->
  debit_consent prog l (is_sig ms) t m amount.
Proof.
  intro H. apply authorize_debit_inv in H. destruct H as [Hs H]. exists auth. split; [exact Hs|].
  destruct H as [[H _]|[[H1 [H2 _]]|[H _]]]; auto.
Qed.
Lemma authorize_debit_fields prog l ms cpi t m auth signers amount self t1 :
  authorize_debit prog l ms cpi t m auth signers amount self = Ok t1 ->
  t_mint t1 = t_mint t /\ t_owner t1 = t_owner t /\ t_amount t1 = t_amount t /\ t_state t1 = t_state t /\
  t_native t1 = t_native t /\ t_close t1 = t_close t /\ t_exts t1 = t_exts t.
Proof.
  intro H. apply authorize_debit_inv in H. destruct H as [_ [[_ ->]|[[_ [_ ->]]|[_ [-> _]]]]]; auto 10.
  destruct self; auto 10.
Qed.

(** ** Transfers *)
Lemma add_withheld_types fee x y : add_withheld fee x = Some y -> map acct_ext_type_of y = map acct_ext_type_of x.
Proof.
  revert y; induction x as [|a x IH]; intros y H; cbn [add_withheld] in H; [discriminate|].
  destruct a; try (destruct (add_withheld fee x) as [z|]; [|discriminate]; inversion H; subst; cbn [map]; now rewrite (IH z)).
  destruct (withheld + fee <? two64); inversion H; subst; reflexivity.
Qed.
Lemma add_withheld_space fee x y : add_withheld fee x = Some y -> tok_space y = tok_space x.
Proof.
  intro H. assert (E : map acct_ext_len y = map acct_ext_len x).
  { revert y H; induction x as [|a x IH]; intros y H; cbn [add_withheld] in H; [discriminate|].
    destruct a; try (destruct (add_withheld fee x) as [z|]; [|discriminate]; inversion H; subst; cbn [map]; now rewrite (IH z)).
    destruct (withheld + fee <? two64); inversion H; subst; reflexivity. }
  unfold tok_space. destruct x as [|a x]; [discriminate H|]. destruct y as [|b y]; [discriminate E|]. now rewrite E.
Qed.

(** Token balances after a transfer between two different accounts. *)
Definition transfer_ledger (l : ledger) (src dst : pubkey) (s1 d : tokacc) (dx : list acct_ext) (amount fee : N) : ledger :=
  let l1 := upd l src (with_data (DTok (set_amount (t_amount s1 - amount) s1)) (l src)) in
  upd l1 dst (with_data (DTok (set_texts dx (set_amount (t_amount d + (amount - fee)) d))) (l1 dst)).

Lemma transfer_checked_inv e prog cpi ms src mnt dst auth signers amount dec expfee l l' :
  tok_transfer_checked e prog cpi ms src mnt dst auth signers amount dec expfee l = Ok l' ->
  exists s m fee s1,
    unpack_tok prog (a_data (l src)) = Ok s /\ t_state s <> Frozen /\ amount <= t_amount s /\ t_mint s = mnt /\
    unpack_mint prog (a_data (l mnt)) = Ok m /\ dec = m_decimals m /\ transfer_fee_of e m amount = Ok fee /\
    ext_paused m = false /\ (expfee = None \/ expfee = Some fee) /\
    authorize_debit prog l ms cpi s m auth signers amount (pk_eqb src dst) = Ok s1 /\
    a_owner (l src) = prog /\ a_owner (l dst) = prog /\
    ((src = dst /\ l' = l) \/
     (src <> dst /\ exists d dx l3,
        unpack_tok prog (a_data (l dst)) = Ok d /\ t_state d <> Frozen /\ t_mint d = mnt /\
        (memo_required d = true -> e_memo e = true) /\
        fee <= amount /\ t_amount d + (amount - fee) < two64 /\
        (if fee =? 0 then dx = t_exts d else add_withheld fee (t_exts d) = Some dx) /\
        is_wr ms src = true /\ is_wr ms dst = true /\
        move_native prog ms s src dst amount (transfer_ledger l src dst s1 d dx amount fee) = Ok l3 /\
        run_hook e m ms amount l3 = Ok l')).
Proof.
  unfold tok_transfer_checked; intro H.
  apply bind_ok in H; destruct H as [s [Hs H]].
  apply bind_ok in H; destruct H as [? [Hfr H]]. apply guard_ok in Hfr.
  apply bind_ok in H; destruct H as [? [Ham H]]. apply guard_ok, N.leb_le in Ham.
  apply bind_ok in H; destruct H as [? [Hnt H]].
  apply bind_ok in H; destruct H as [? [Hmm H]]. apply guard_ok, pk_eqb_eq in Hmm.
  apply bind_ok in H; destruct H as [m [Hm H]].
  apply bind_ok in H; destruct H as [? [Hdec H]]. apply guard_ok, N.eqb_eq in Hdec.
  apply bind_ok in H; destruct H as [fee [Hfee H]].
  apply bind_ok in H; destruct H as [? [Hp H]]. apply guard_ok, negb_true_iff in Hp.
  apply bind_ok in H; destruct H as [? [Hef H]]. apply guard_ok in Hef.
  cbv zeta in H.
  apply bind_ok in H; destruct H as [s1 [Ha H]].
  apply bind_ok in H; destruct H as [? [Ho H]]. apply guard_ok, andb_true_iff in Ho. destruct Ho as [Ho1 Ho2].
  apply pk_eqb_eq in Ho1, Ho2.
  exists s, m, fee, s1. repeat (split; [first [assumption | reflexivity]|]).
  split. { intro X; rewrite X in Hfr; discriminate. }
  repeat (split; [first [assumption | reflexivity]|]).
  split. { destruct expfee; [right; apply N.eqb_eq in Hef; congruence|left; reflexivity]. }
  repeat (split; [first [assumption | reflexivity]|]).
  destruct (pk_eqb src dst) eqn:Esd.
  - apply pk_eqb_eq in Esd. left. split; [exact Esd|]. inv_ok. auto.
  - apply pk_eqb_neq in Esd. right. split; [exact Esd|].
    apply bind_ok in H; destruct H as [d [Hd H]].
    apply bind_ok in H; destruct H as [? [Hdf H]]. apply guard_ok in Hdf.
    apply bind_ok in H; destruct H as [? [Hdm H]]. apply guard_ok, pk_eqb_eq in Hdm.
    apply bind_ok in H; destruct H as [? [Hmemo H]]. apply guard_ok in Hmemo.
    apply bind_ok in H; destruct H as [? [Hfa H]]. apply guard_ok, N.leb_le in Hfa.
    cbv zeta in H.
    apply bind_ok in H; destruct H as [? [Hu H]]. apply guard_ok in Hu. unfold u64_ok in Hu. apply N.ltb_lt in Hu.
    apply bind_ok in H; destruct H as [dx [Hdx H]].
    apply bind_ok in H; destruct H as [l1 [H1 H]]. apply set_data_inv in H1. destruct H1 as (W1 & _ & ->).
    apply bind_ok in H; destruct H as [l2 [H2 H]]. apply set_data_inv in H2. destruct H2 as (W2 & _ & ->).
    apply bind_ok in H; destruct H as [l3 [H3 H]].
    exists d, dx, l3.
    repeat (split; [first [assumption | reflexivity]|]).
    split. { intro X; rewrite X in Hdf; discriminate. }
    split; [assumption|]. split. { intro X; rewrite X in Hmemo; exact Hmemo. }
    split; [assumption|]. split; [assumption|].
    split. { destruct (fee =? 0); [inv_ok; auto|]. apply of_option_ok in Hdx; exact Hdx. }
    auto.
Qed.

Lemma transfer_plain_inv e prog cpi ms src dst auth signers amount l l' :
  tok_transfer_plain e prog cpi ms src dst auth signers amount l = Ok l' ->
  exists s s1,
    unpack_tok prog (a_data (l src)) = Ok s /\ t_state s <> Frozen /\ amount <= t_amount s /\
    authorize_debit prog l ms cpi s (mkMint None 0 0 true None [] 82) auth signers amount (pk_eqb src dst) = Ok s1 /\
    a_owner (l src) = prog /\ a_owner (l dst) = prog /\
    ((src = dst /\ l' = l) \/
     (src <> dst /\ exists d,
        unpack_tok prog (a_data (l dst)) = Ok d /\ t_state d <> Frozen /\ t_mint d = t_mint s /\
        is_wr ms src = true /\ is_wr ms dst = true /\ t_amount d + amount < two64 /\
        move_native prog ms s src dst amount
          (let l1 := upd l src (with_data (DTok (set_amount (t_amount s1 - amount) s1)) (l src)) in
           upd l1 dst (with_data (DTok (set_amount (t_amount d + amount) d)) (l1 dst))) = Ok l')).
Proof.
  unfold tok_transfer_plain; intro H.
  apply bind_ok in H; destruct H as [s [Hs H]].
  apply bind_ok in H; destruct H as [? [Hfr H]]. apply guard_ok in Hfr.
  apply bind_ok in H; destruct H as [? [Ham H]]. apply guard_ok, N.leb_le in Ham.
  apply bind_ok in H; destruct H as [? [Hnt H]].
  cbv zeta in H.
  apply bind_ok in H; destruct H as [s1 [Ha H]].
  apply bind_ok in H; destruct H as [? [Ho H]]. apply guard_ok, andb_true_iff in Ho. destruct Ho as [Ho1 Ho2].
  apply pk_eqb_eq in Ho1, Ho2.
  exists s, s1. repeat (split; [first [assumption | reflexivity]|]).
  split. { intro X; rewrite X in Hfr; discriminate. }
  repeat (split; [first [assumption | reflexivity]|]).
  destruct (pk_eqb src dst) eqn:Esd.
  - apply pk_eqb_eq in Esd. left. split; [exact Esd|]. inv_ok. auto.
  - apply pk_eqb_neq in Esd. right. split; [exact Esd|].
    apply bind_ok in H; destruct H as [d [Hd H]].
    apply bind_ok in H; destruct H as [? [Hdf H]]. apply guard_ok in Hdf.
    apply bind_ok in H; destruct H as [? [Hdm H]]. apply guard_ok, pk_eqb_eq in Hdm.
    apply bind_ok in H; destruct H as [? [Hmemo H]].
    apply bind_ok in H; destruct H as [? [Hu H]]. apply guard_ok in Hu. unfold u64_ok in Hu. apply N.ltb_lt in Hu.
    apply bind_ok in H; destruct H as [l1 [H1 H]]. apply set_data_inv in H1. destruct H1 as (W1 & _ & ->).
    apply bind_ok in H; destruct H as [l2 [H2 H]]. apply set_data_inv in H2. destruct H2 as (W2 & _ & ->).
    exists d. repeat (split; [first [assumption | reflexivity]|]).
    split. { intro X; rewrite X in Hdf; discriminate. } auto 10.
Qed.

Lemma mint_to_inv prog ms mnt dst auth signers amount l l' :
  tok_mint_to prog ms mnt dst auth signers amount l = Ok l' ->
  exists d m,
    unpack_tok prog (a_data (l dst)) = Ok d /\ t_state d <> Frozen /\ t_native d = None /\ t_mint d = mnt /\
    unpack_mint prog (a_data (l mnt)) = Ok m /\ m_auth m = Some auth /\
    signed_for prog l (is_sig ms) auth /\
    t_amount d + amount < two64 /\ m_supply m + amount < two64 /\
    a_owner (l dst) = prog /\ a_owner (l mnt) = prog /\ mnt <> dst /\
    is_wr ms dst = true /\ is_wr ms mnt = true /\
    l' = upd (upd l dst (with_data (DTok (set_amount (t_amount d + amount) d)) (l dst)))
             mnt (with_data (DMint (set_supply (m_supply m + amount) m)) (l mnt)).
Proof.
  unfold tok_mint_to; intro H.
  apply bind_ok in H; destruct H as [d [Hd H]].
  apply bind_ok in H; destruct H as [? [Hfr H]]. apply guard_ok in Hfr.
  apply bind_ok in H; destruct H as [? [Hnat H]]. apply guard_ok in Hnat.
  apply bind_ok in H; destruct H as [? [Hmm H]]. apply guard_ok, pk_eqb_eq in Hmm.
  apply bind_ok in H; destruct H as [m [Hm H]].
  apply bind_ok in H; destruct H as [? [_ H]].
  apply bind_ok in H; destruct H as [? [_ H]].
  apply bind_ok in H; destruct H as [? [_ H]].
  apply bind_ok in H; destruct H as [a [Ha H]]. apply of_option_ok in Ha.
  apply bind_ok in H; destruct H as [? [Hv H]]. apply validate_owner_inv in Hv. destruct Hv as [-> Hv].
  apply bind_ok in H; destruct H as [? [Hu1 H]]. apply guard_ok in Hu1. unfold u64_ok in Hu1. apply N.ltb_lt in Hu1.
  apply bind_ok in H; destruct H as [? [Hu2 H]]. apply guard_ok in Hu2. unfold u64_ok in Hu2. apply N.ltb_lt in Hu2.
  apply bind_ok in H; destruct H as [l1 [H1 H]]. apply set_data_inv in H1. destruct H1 as (W1 & O1 & ->).
  apply set_data_inv in H. destruct H as (W2 & O2 & ->).
  assert (Hne : mnt <> dst).
  { intro X. apply unpack_tok_inv in Hd. apply unpack_mint_inv in Hm. rewrite X in Hm.
    destruct Hd as [Hd _], Hm as [Hm _]. congruence. }
  rewrite upd_other in O2 by auto.
  exists d, m. repeat (split; [first [assumption | reflexivity]|]).
  split. { intro X; rewrite X in Hfr; discriminate. }
  split. { destruct (t_native d); [discriminate|reflexivity]. }
  repeat (split; [first [assumption | reflexivity]|]).
  now rewrite upd_other by auto.
Qed.

Lemma burn_inv prog cpi ms src mnt auth signers amount l l' :
  tok_burn prog cpi ms src mnt auth signers amount l = Ok l' ->
  exists s m s1,
    unpack_tok prog (a_data (l src)) = Ok s /\ unpack_mint prog (a_data (l mnt)) = Ok m /\
    t_state s <> Frozen /\ t_native s = None /\ amount <= t_amount s /\ t_mint s = mnt /\
    (((t_owner s = system_id \/ t_owner s = incinerator_id) /\ s1 = s) \/
     (t_owner s <> system_id /\ t_owner s <> incinerator_id /\
      authorize_debit prog l ms cpi s m auth signers amount false = Ok s1)) /\
    amount <= m_supply m /\
    a_owner (l src) = prog /\ a_owner (l mnt) = prog /\ mnt <> src /\
    is_wr ms src = true /\ is_wr ms mnt = true /\
    l' = upd (upd l src (with_data (DTok (set_amount (t_amount s1 - amount) s1)) (l src)))
             mnt (with_data (DMint (set_supply (m_supply m - amount) m)) (l mnt)).
Proof.
  unfold tok_burn; intro H.
  apply bind_ok in H; destruct H as [s [Hs H]].
  apply bind_ok in H; destruct H as [m [Hm H]].
  apply bind_ok in H; destruct H as [? [Hfr H]]. apply guard_ok in Hfr.
  apply bind_ok in H; destruct H as [? [Hnat H]]. apply guard_ok in Hnat.
  apply bind_ok in H; destruct H as [? [Ham H]]. apply guard_ok, N.leb_le in Ham.
  apply bind_ok in H; destruct H as [? [Hmm H]]. apply guard_ok, pk_eqb_eq in Hmm.
  apply bind_ok in H; destruct H as [? [_ H]].
  apply bind_ok in H; destruct H as [? [_ H]].
  apply bind_ok in H; destruct H as [s1 [Ha H]].
  apply bind_ok in H; destruct H as [? [Hsup H]]. apply guard_ok, N.leb_le in Hsup.
  apply bind_ok in H; destruct H as [l1 [H1 H]]. apply set_data_inv in H1. destruct H1 as (W1 & O1 & ->).
  apply set_data_inv in H. destruct H as (W2 & O2 & ->).
  assert (Hne : mnt <> src).
  { intro X. apply unpack_tok_inv in Hs. apply unpack_mint_inv in Hm. rewrite X in Hm.
    destruct Hs as [Hs _], Hm as [Hm _]. congruence. }
  rewrite upd_other in O2 by auto.
  exists s, m, s1. repeat (split; [first [assumption | reflexivity]|]).
  split. { intro X; rewrite X in Hfr; discriminate. }
  split. { destruct (t_native s); [discriminate|reflexivity]. }
  split; [assumption|]. split; [assumption|].
  split. { destruct (pk_eqb (t_owner s) system_id || pk_eqb (t_owner s) incinerator_id) eqn:E.
           - left. apply orb_true_iff in E. rewrite !pk_eqb_eq in E. inv_ok. auto.
           - right. apply orb_false_iff in E. rewrite !pk_eqb_neq in E. tauto. }
  repeat (split; [first [assumption | reflexivity]|]).
  now rewrite upd_other by auto.
Qed.
