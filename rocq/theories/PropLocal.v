(** * PropLocal.v — C64: an instruction's outcome is settled by the accounts it names, whatever
    happens elsewhere, and the order of instructions that do not share accounts is immaterial. *)
From Verif Require Import Base Codec State Pda TokenProg Cpi Meta Ata Processor Builders Spec HistorySpec LocalSpec
  FrameProofs GlobalProofs PropGlobal Local Demo Demo2 DemoHist PropLifecycle.
From Coq Require Import Permutation.

Lemma writable_dec accounts k : writable accounts k \/ ~ writable accounts k.
Proof.
  destruct (is_wr accounts k) eqn:W.
  - left. apply is_wr_In in W. exact W.
  - right. intro X. apply is_wr_In in X. rewrite X in W. discriminate W.
Qed.
Lemma not_writable accounts k : ~ writable accounts k -> is_wr accounts k = false.
Proof. intro H. apply not_true_is_false. intro W. apply H. apply is_wr_In in W. exact W. Qed.

(** ** Locality *)
Theorem C64_local : forall e accounts input l1 l2,
  sees_its_accounts e -> agree (keys accounts) l1 l2 ->
  alike (keys accounts) (process_instruction e (mkCtx tw_id accounts) input l1)
                        (process_instruction e (mkCtx tw_id accounts) input l2).
Proof. intros. apply instruction_al; assumption. Qed.

Lemma ata_create_al ks e p wallet mnt l1 l2 : In (ata_of e wallet mnt p) ks -> In mnt ks -> agree ks l1 l2 ->
  alike ks (ata_create e p wallet mnt l1) (ata_create e p wallet mnt l2).
Proof.
  intros K M A. unfold ata_create. cbv zeta. remember (ata_of e wallet mnt p) as k eqn:E. clear E.
  repeat same_step.
  match goal with |- alike _ (tok_init_account _ _ _ _ _ _ _ ?x) (tok_init_account _ _ _ _ _ _ _ ?y) =>
    assert (A1 : agree ks x y) by (apply agree_upd; [exact A | reflexivity]); generalize dependent y; generalize dependent x end.
  intros x y B. unfold tok_init_account. locs.
Qed.
Lemma perform_local r l1 l2 : well_behaved r -> agree (names r) l1 l2 -> alike (names r) (perform r l1) (perform r l2).
Proof.
  destruct r as [e accounts input|e p cpi accounts ix|e p wallet mnt]; cbn [well_behaved names perform]; intros S A.
  - apply instruction_al; assumption.
  - apply tok_exec_al; [exact S | intros k K; exact K | exact A].
  - apply ata_create_al; [left; reflexivity | right; left; reflexivity | exact A].
Qed.
Lemma perform_writes r l l' k : perform r l = Ok l' -> ~ may_write r k -> l' k = l k.
Proof.
  destruct r as [e accounts input|e p cpi accounts ix|e p wallet mnt]; cbn [may_write perform]; intros H N.
  - exact (proj1 (rs_process _ _ _ _ _ H) k (not_writable _ _ N)).
  - exact (proj1 (tok_exec_rs _ _ _ _ _ _ _ H) k (not_writable _ _ N)).
  - exact (ata_create_frame _ _ _ _ _ _ _ H N).
Qed.
Lemma may_write_named r k : may_write r k -> In k (names r).
Proof.
  destruct r as [e accounts input|e p cpi accounts ix|e p wallet mnt]; cbn [may_write names].
  1, 2: intros (i & I & <- & _); apply in_map; exact I.
  intros ->. left. reflexivity.
Qed.
Lemma may_write_dec r k : may_write r k \/ ~ may_write r k.
Proof.
  destruct r as [e accounts input|e p cpi accounts ix|e p wallet mnt]; cbn [may_write]; try apply writable_dec.
  destruct (pk_dec k (ata_of e wallet mnt p)); [left | right]; assumption.
Qed.
Lemma committed_writes r l k : ~ may_write r k -> committed r l k = l k.
Proof. unfold committed. intro N. destruct (perform r l) eqn:E; [exact (perform_writes _ _ _ _ E N) | reflexivity]. Qed.
Lemma committed_agree r l1 l2 : well_behaved r -> agree (names r) l1 l2 ->
  agree (names r) (committed r l1) (committed r l2) /\ verdict r l1 = verdict r l2.
Proof.
  intros S A. pose proof (perform_local r l1 l2 S A) as X. unfold committed, verdict.
  destruct (perform r l1), (perform r l2); cbn in X; try contradiction.
  - split; [exact X | reflexivity].
  - split; [exact A | rewrite X; reflexivity].
Qed.
Lemma independent_sym r s : independent r s -> independent s r.
Proof. intros H k. destruct (H k). split; assumption. Qed.
Lemma independent_agree r s l : independent r s -> agree (names r) (committed s l) l.
Proof.
  intros I k K. apply committed_writes. intro W. exact (proj2 (I k) W K).
Qed.

(** ** Two requests *)
Theorem C64_commute : forall r s l,
  well_behaved r -> well_behaved s -> independent r s ->
  (forall k, committed s (committed r l) k = committed r (committed s l) k) /\
  verdict r (committed s l) = verdict r l /\ verdict s (committed r l) = verdict s l.
Proof.
  intros r s l R S I.
  destruct (committed_agree r (committed s l) l R (independent_agree _ _ _ I)) as [A1 V1].
  destruct (committed_agree s (committed r l) l S (independent_agree _ _ _ (independent_sym _ _ I))) as [A2 V2].
  split; [| split; assumption]. intro k.
  destruct (may_write_dec r k) as [Wr|Nr].
  - assert (Ns : ~ may_write s k) by (intro W; exact (proj1 (I k) Wr (may_write_named _ _ W))).
    rewrite (committed_writes s _ k Ns). symmetry. exact (A1 k (may_write_named _ _ Wr)).
  - rewrite (committed_writes r (committed s l) k Nr).
    destruct (may_write_dec s k) as [Ws|Ns].
    + exact (A2 k (may_write_named _ _ Ws)).
    + rewrite !(committed_writes s _ k Ns). apply committed_writes. exact Nr.
Qed.

(** ** Any number of requests, in any order *)
Lemma committed_all_writes rs : forall l k, (forall r, In r rs -> ~ may_write r k) -> committed_all rs l k = l k.
Proof.
  induction rs as [|r rs IH]; intros l k H; [reflexivity |]. cbn [committed_all].
  rewrite IH by (intros s Is; apply H; right; exact Is). apply committed_writes. apply H. left. reflexivity.
Qed.
Lemma committed_all_app xs : forall ys l, committed_all (xs ++ ys) l = committed_all ys (committed_all xs l).
Proof. induction xs as [|x xs IH]; intros ys l; [reflexivity |]. cbn. apply IH. Qed.

Theorem C64_each_alone : forall before r after l,
  well_behaved r -> Forall (independent r) (before ++ after) ->
  verdict r (committed_all before l) = verdict r l /\
  agree (names r) (committed_all (before ++ r :: after) l) (committed r l).
Proof.
  intros before r after l R I. rewrite Forall_app in I. destruct I as [Ib Ia].
  assert (A : agree (names r) (committed_all before l) l).
  { intros k K. apply committed_all_writes. intros s Is W. rewrite Forall_forall in Ib. exact (proj2 (Ib s Is k) W K). }
  destruct (committed_agree r _ _ R A) as [A1 V]. split; [exact V |].
  rewrite committed_all_app. cbn [committed_all]. intros k K. rewrite <- (A1 k K).
  apply committed_all_writes. intros s Is W. rewrite Forall_forall in Ia. exact (proj2 (Ia s Is k) W K).
Qed.

Lemma pairwise_in rs : ForallOrdPairs independent rs -> forall r, In r rs ->
  exists before after, rs = before ++ r :: after /\ Forall (independent r) (before ++ after).
Proof.
  induction 1 as [|x rs H P IH]; intros r I; [destruct I |]. destruct I as [<- | I].
  - exists [], rs. split; [reflexivity | exact H].
  - destruct (IH r I) as (b & a & E & F). exists (x :: b), a. split; [rewrite E; reflexivity |].
    cbn. constructor; [| exact F]. apply independent_sym. rewrite Forall_forall in H. exact (H r I).
Qed.
Lemma pairwise_perm rs rs' : Permutation rs rs' -> ForallOrdPairs independent rs -> ForallOrdPairs independent rs'.
Proof.
  induction 1 as [|x xs ys P IH|x y xs|xs ys zs P1 IH1 P2 IH2]; intro H.
  - constructor.
  - inversion H as [|? ? F G]; subst. constructor; [| exact (IH G)]. rewrite Forall_forall in *. intros z Z. apply F.
    apply (Permutation_in _ (Permutation_sym P)). exact Z.
  - inversion H as [|? ? F G]; subst. inversion G as [|? ? F2 G2]; subst. inversion F as [|? ? F3 G3]; subst.
    constructor; [constructor; [apply independent_sym; exact F3 | exact F2] |]. constructor; assumption.
  - exact (IH2 (IH1 H)).
Qed.
Lemma writer_dec rs k : (exists r, In r rs /\ may_write r k) \/ (forall r, In r rs -> ~ may_write r k).
Proof.
  induction rs as [|x rs IH]; [right; intros r [] |].
  destruct (may_write_dec x k) as [W|W]; [left; exists x; split; [left; reflexivity | exact W] |].
  destruct IH as [(r & I & Wr)|H]; [left; exists r; split; [right; exact I | exact Wr] |].
  right. intros r [<- | I]; [exact W | exact (H r I)].
Qed.
Theorem C64_schedule : forall rs rs' l k,
  Forall well_behaved rs -> ForallOrdPairs independent rs -> Permutation rs rs' ->
  committed_all rs l k = committed_all rs' l k.
Proof.
  intros rs rs' l k S P Q.
  destruct (writer_dec rs k) as [(r & I & W)|H].
  - rewrite Forall_forall in S. pose proof (S r I) as R.
    destruct (pairwise_in rs P r I) as (b & a & -> & F).
    destruct (pairwise_in rs' (pairwise_perm _ _ Q P) r (Permutation_in _ Q I)) as (b' & a' & -> & F').
    rewrite (proj2 (C64_each_alone b r a l R F) k (may_write_named _ _ W)).
    symmetry. exact (proj2 (C64_each_alone b' r a' l R F') k (may_write_named _ _ W)).
  - rewrite (committed_all_writes rs l k H). symmetry. apply committed_all_writes.
    intros r I. apply H. exact (Permutation_in _ (Permutation_sym Q) I).
Qed.

(** ** Whatever happens between signing and execution *)
Lemma meanwhile_agree e0 ks l l' : meanwhile e0 ks l l' -> agree ks l l'.
Proof.
  induction 1 as [l|a l l1 l2 M IH St Sp]; [intros k _; reflexivity |].
  intros k K. rewrite (IH k K). symmetry.
  inversion St; subst; cbn [spares] in Sp.
  - exact (proj1 (rs_process _ _ _ _ _ H1) k (not_writable _ _ (Sp k K))).
  - exact (proj1 (tok_exec_rs _ _ _ _ _ _ _ H2) k (not_writable _ _ (Sp k K))).
  - apply (ata_create_frame _ _ _ _ _ _ _ H1). intros ->. exact (Sp K).
  - symmetry. exact (Sp k K).
Qed.
Theorem C64_meanwhile : forall e0 e accounts input l l',
  sees_its_accounts e -> meanwhile e0 (keys accounts) l l' ->
  alike (keys accounts) (process_instruction e (mkCtx tw_id accounts) input l)
                        (process_instruction e (mkCtx tw_id accounts) input l').
Proof. intros. apply C64_local; [assumption |]. eapply meanwhile_agree. eassumption. Qed.

(** ** Examples *)
Lemma demo_sees : sees_its_accounts demo_env.
Proof.
  repeat split; intros; cbn [demo_env e_hook e_external e_extra e_multisig alike]; auto.
Qed.
Definition apart (xs ys : list info) : bool :=
  forallb (fun i => negb (i_writable i) || negb (pk_mem (i_key i) (keys ys))) xs.
Lemma apart_writes xs ys k : apart xs ys = true -> writable xs k -> ~ In k (keys ys).
Proof.
  unfold apart. rewrite forallb_forall. intros H (i & I & <- & W) K. specialize (H i I). rewrite W in H. cbn in H.
  apply negb_true_iff in H. assert (X : pk_mem (i_key i) (keys ys) = true) by (apply pk_mem_In; exact K). rewrite X in H. discriminate H.
Qed.

(** Alice wraps, the mint authority publishes a canonical wrapped mint, and Bob names a delegate: none
    of these names an account another one writes. *)
Definition wrap_300 : request := RTokenWrap demo_env (tx_metas (i_wrap 300)) (tx_data (i_wrap 300)).
Definition unwrap_300 : request := RTokenWrap demo_env (tx_metas (i_unwrap 300)) (tx_data (i_unwrap 300)).
Definition publish : request :=
  let ix := build_set_canonical_pointer tw_id d_mintauth (canonical_pointer_of demo_env d_u) d_u (repeat 7 32) in
  RTokenWrap demo_env (tx_metas ix) (tx_data ix).
Definition bob_approves : request :=
  RTokenProgram demo_env t22_id false [meta_w d_bob_w false; meta_r d_alice false; meta_r d_bob true] (TiApprove 5).
Definition trio : list request := [wrap_300; publish; bob_approves].
Definition before_trio : ledger := now_of (setup ++ [CFund (canonical_pointer_of demo_env d_u) 4000]).

Lemma trio_behaved : Forall well_behaved trio.
Proof. repeat constructor; intros; cbn [demo_env e_hook e_external e_extra e_multisig alike]; auto. Qed.
Lemma indep_of r s xs ys :
  names r = keys xs -> names s = keys ys -> (forall k, may_write r k <-> writable xs k) -> (forall k, may_write s k <-> writable ys k) ->
  apart xs ys && apart ys xs = true -> independent r s.
Proof.
  intros N1 N2 W1 W2 B k. apply andb_true_iff in B. destruct B as [B1 B2]. rewrite N1, N2, W1, W2.
  split; apply apart_writes; assumption.
Qed.
Lemma trio_independent : ForallOrdPairs independent trio.
Proof.
  assert (I1 : independent wrap_300 publish)
    by (eapply indep_of; [reflexivity | reflexivity | intro; apply iff_refl | intro; apply iff_refl | vm_compute; reflexivity]).
  assert (I2 : independent wrap_300 bob_approves)
    by (eapply indep_of; [reflexivity | reflexivity | intro; apply iff_refl | intro; apply iff_refl | vm_compute; reflexivity]).
  assert (I3 : independent publish bob_approves)
    by (eapply indep_of; [reflexivity | reflexivity | intro; apply iff_refl | intro; apply iff_refl | vm_compute; reflexivity]).
  apply FOP_cons; [apply Forall_cons; [exact I1 | apply Forall_cons; [exact I2 | apply Forall_nil]] |].
  apply FOP_cons; [apply Forall_cons; [exact I3 | apply Forall_nil] |].
  apply FOP_cons; [apply Forall_nil | apply FOP_nil].
Qed.
Definition delegate_seen (l : ledger) (k d : pubkey) : bool :=
  match a_data (l k) with DTok t => opk_eqb (t_delegate t) (Some d) | _ => false end.
(** All three succeed, in whichever order, with the effects each has on its own. *)
Example C64_example : reachable demo_env before_trio /\ Forall well_behaved trio /\ ForallOrdPairs independent trio /\
  (forall rs, Permutation trio rs ->
     (forall k, committed_all trio before_trio k = committed_all rs before_trio k) /\
     tok_amount (committed_all rs before_trio) d_alice_w = 300 /\
     delegate_seen (committed_all rs before_trio) d_bob_w d_alice = true /\
     data_is_empty (a_data (before_trio (canonical_pointer_of demo_env d_u))) = true /\
     data_is_empty (a_data (committed_all rs before_trio (canonical_pointer_of demo_env d_u))) = false).
Proof.
  split; [| split; [exact trio_behaved | split; [exact trio_independent |]]].
  - exists (past_of (setup ++ [CFund (canonical_pointer_of demo_env d_u) 4000])). apply played_history. vm_compute. reflexivity.
  - intros rs P.
    assert (E : forall k, committed_all trio before_trio k = committed_all rs before_trio k)
      by (intro k; apply (C64_schedule trio rs before_trio k trio_behaved trio_independent P)).
    split; [exact E |]. unfold tok_amount, delegate_seen. rewrite <- !E. vm_compute. auto.
Qed.
(** Sharing accounts matters: unwrapping before wrapping fails, afterwards it succeeds. *)
Example C64_order_matters :
  verdict unwrap_300 (committed wrap_300 before_trio) = None /\ verdict unwrap_300 before_trio <> None /\
     ~ independent wrap_300 unwrap_300.
Proof.
  split; [vm_compute; reflexivity |]. split; [vm_compute; discriminate |].
  intro I. apply (proj1 (I d_alice_w)); [| cbn; auto 12].
  exists (meta_w d_alice_w false). split; [left; reflexivity | split; reflexivity].
Qed.
(** Alice's wrap between signing and execution: Bob and the mint authority have moved in the meantime. *)
Example C64_meanwhile_example : exists l', meanwhile demo_env (keys (tx_metas (i_wrap 300))) before_trio l' /\
     delegate_seen l' d_bob_w d_alice = true /\ delegate_seen before_trio d_bob_w d_alice = false /\
     verdict wrap_300 before_trio = None /\ verdict wrap_300 l' = None.
Proof.
  exists (committed bob_approves before_trio). split; [| vm_compute; auto].
  eapply mw_step with (a := ATokenProgram demo_env t22_id false [meta_w d_bob_w false; meta_r d_alice false; meta_r d_bob true] (TiApprove 5));
    [apply mw_none | | ].
  - unfold committed. destruct (perform bob_approves before_trio) as [l'|err] eqn:E.
    + apply st_token_program; [exact demo_lawful | right; reflexivity | | exact E].
      intros k (i & I & <- & Sg). destruct I as [<- | [<- | [<- | []]]]; reflexivity.
    + exfalso. assert (X : verdict bob_approves before_trio = None) by (vm_compute; reflexivity). unfold verdict in X. rewrite E in X. discriminate X.
  - cbn [spares]. intros k K W. revert K.
    refine (apart_writes [meta_w d_bob_w false; meta_r d_alice false; meta_r d_bob true] _ k _ W). vm_compute. reflexivity.
Qed.
(** An environment with a hook that writes (it logs the amount in the first account after the four of
    the transfer) and helpers that look accounts up in the ledger. *)
Definition logging_env : env :=
  mkEnv (fun _ _ => true) (fun n => n * 10) 5 false
        (fun _ ms n l => match keys ms with _ :: _ :: _ :: _ :: k :: _ => Ok (upd l k (with_data (DRaw (n :: repeat 0 (N.to_nat (data_len (a_data (l k)) - 1)))) (l k))) | _ => Err EInvalidArgument end)
        (fun l _ more => Ok (filter (fun i => i_signer i) more))
        (fun l k more => Ok (match a_data (l k) with DMultisig m => filter (fun x => pk_mem x (ms_signers m)) (keys more) | _ => [] end))
        (fun p l ms => match keys ms with k :: _ => Ok (upd l k (with_data (DRaw [a_lamports (l k)]) (l k))) | [] => Err EInvalidArgument end)
        (fun _ _ _ => Ok None) (fun _ _ => true) (fun s => str_len s)
        (fun b => PkRaw (1000 + from_le b)) (fun _ => true) 100 None
        (fun _ => ""%string) (fun _ => ""%string) (fun _ => ""%string) (fun _ => ""%string) (fun _ => ""%string)
        (fun _ => ""%string) (fun _ => ""%string)
        (fun _ => None) (fun _ => None) (fun _ => None).
Lemma logging_sees : sees_its_accounts logging_env.
Proof.
  split; [| split; [| split]]; intros; cbn [logging_env e_hook e_external e_extra e_multisig].
  - destruct (keys ms) as [|k0 [|k1 [|k2 [|k3 [|k4 r]]]]]; try reflexivity. apply al_ok. apply agree_upd; [assumption |].
    rewrite (H k4) by (cbn; auto 12). reflexivity.
  - destruct (keys ms) as [|k0 r]; try reflexivity. apply al_ok. apply agree_upd; [assumption |].
    rewrite (H k0) by (cbn; auto). reflexivity.
  - reflexivity.
  - rewrite (H k) by (cbn; auto). reflexivity.
Qed.
