(** * PropGlobal.v — C32, C33, C34: what holds for every instruction. *)
From Verif Require Import Base Codec State Pda TokenProg Cpi Meta Processor Builders PdaProofs Spec Demo Demo2 FrameProofs GlobalProofs.

(** C32: a failing instruction, with whatever CPIs it made before failing, leaves the ledger as it was. *)
Theorem C32_instruction : forall e accounts input l l' err,
  run_instruction e (mkCtx tw_id accounts) input l = (l', Err err) -> l' = l.
Proof. unfold run_instruction. intros e accounts input l l' err H. destruct (process_instruction _ _ _ _); congruence. Qed.
Print Assumptions C32_instruction.

(** C32: a transaction commits the effect of all its instructions or of none. *)
Theorem C32_transaction : forall txs l l' r, run_transaction txs l = (l', r) ->
  (r = Ok tt /\ all_succeed txs l l') \/ (exists err, r = Err err /\ l' = l /\ forall l2, ~ all_succeed txs l l2).
Proof.
  intros txs l l' r H. unfold run_transaction in H.
  assert (G : forall l, match run_steps txs l with Ok l2 => all_succeed txs l l2 | Err _ => forall l2, ~ all_succeed txs l l2 end).
  { clear. induction txs as [|[[e accounts] input] txs IH]; intro l; cbn [run_steps]; [constructor|].
    destruct (process_instruction e (mkCtx tw_id accounts) input l) as [l1|err] eqn:E; cbn [bind].
    - specialize (IH l1). destruct (run_steps txs l1).
      + econstructor; [exact E|exact IH].
      + intros l2 X. inversion X; subst. unfold runs in *. rewrite E in *. match goal with H : Ok _ = Ok _ |- _ => injection H as <- end.
        eapply IH; eassumption.
    - intros l2 X. inversion X; subst. unfold runs in *. rewrite E in *. discriminate. }
  specialize (G l). destruct (run_steps txs l); injection H as <- <-; [left; auto|right; eexists; auto].
Qed.
Print Assumptions C32_transaction.

(** C33: lamports are neither created nor destroyed: any set of accounts that contains the writable
    accounts of the instruction keeps its total.  For every deployment of the program. *)
Theorem C33_lamports : forall prog e accounts input l l' ks,
  process_instruction e (mkCtx prog accounts) input l = Ok l' ->
  NoDup ks -> (forall k, writable accounts k -> In k ks) -> total_lamports ks l' = total_lamports ks l.
Proof.
  intros prog e accounts input l l' ks H Hn Hin. apply rs_process in H. destruct H as [_ H].
  apply (H ks Hn). intros k Hk. apply Hin. apply is_wr_In in Hk. exact Hk.
Qed.
Print Assumptions C33_lamports.

(** C34: an account not passed as writable is unchanged, to the last lamport.  For every deployment. *)
Theorem C34_writable : forall prog e accounts input l l' k,
  process_instruction e (mkCtx prog accounts) input l = Ok l' -> l' k <> l k -> writable accounts k.
Proof.
  intros prog e accounts input l l' k H Hk. apply rs_process in H. destruct H as [H _].
  destruct (is_wr accounts k) eqn:E; [apply is_wr_In in E; exact E|]. exfalso. apply Hk, H, E.
Qed.
Print Assumptions C34_writable.

(** C34: accounts of uninvolved programs keep owner and data; the exceptions are empty system accounts at
    the addresses where token-wrap creates accounts, and whatever a transfer hook of the mint does
    during Wrap or Unwrap. *)
Theorem C34_ownership : forall e accounts input l l' k,
  runs e accounts input l l' -> ~ involved_program (a_owner (l k)) ->
  same_data_and_owner l l' k \/
  (a_owner (l k) = system_id /\ no_data l k /\ created_address e k) \/
  ((exists amount, unpack input = Ok (Wrap amount) \/ unpack input = Ok (Unwrap amount)) /\
   exists u m, mint_data l u m /\ ext_hook m <> None).
Proof. intros e accounts input l l' k H. apply own4_process in H. exact (H k). Qed.
Print Assumptions C34_ownership.

(** ** The hypotheses are met *)
Example C32_nonvacuous : exists err,
  run_transaction [(demo_env, tx_metas i_create, tx_data i_create); (demo_env, tx_metas (i_wrap 300), tx_data (i_wrap 300));
                   (demo_env, tx_metas (i_unwrap 301), tx_data (i_unwrap 301))] demo0 = (demo0, Err err) /\
  exists l, all_succeed [(demo_env, tx_metas i_create, tx_data i_create); (demo_env, tx_metas (i_wrap 300), tx_data (i_wrap 300))] demo0 l /\
    supply l (d_w t22_id) = 300.
Proof.
  eexists. split; [unfold run_transaction; vm_compute (run_steps _ _); reflexivity|].
  eexists. split; [econstructor; [vm_compute; reflexivity|econstructor; [vm_compute; reflexivity|constructor]]|vm_compute; reflexivity].
Qed.
Example C33_nonvacuous : exists l', let l := after [i_create] demo0 in
  runs demo_env (tx_metas (i_wrap 300)) (tx_data (i_wrap 300)) l l' /\ balance l' d_alice_u <> balance l d_alice_u /\
  ~ involved_program (a_owner (l d_alice)).
Proof.
  eexists. split; [vm_compute; reflexivity|]. split; [vm_compute; discriminate|].
  vm_compute. intros [X|[X|[X|X]]]; discriminate.
Qed.
