(** * DemoHist.v — a concrete history: from nothing to wrapped tokens and back.  Used to show that
    the theorems about reachable states are not vacuous. *)
From Verif Require Import Base Codec State Pda TokenProg Cpi Ata Meta Processor Builders Demo Demo2 PdaProofs Spec SpecLemmas HistorySpec InvState.

Definition g0 : ledger := ledger_of [(native_mint_id, mkAcc 1 (DMint wrapped_sol_mint) spl_token_id)].

(** A script: fund an account, get a zeroed account of a program, call a token program, create
    an associated token account, call token-wrap. *)
Inductive cmd :=
| CFund (k : pubkey) (n : N)
| CAlloc (k : pubkey) (size lamports : N) (p : pubkey)
| CTok (p : pubkey) (accounts : list info) (ix : tok_ix)
| CAta (p wallet mnt : pubkey)
| CTw (i : tw_instruction).
Definition ruledb (p : pubkey) : bool := pk_eqb p spl_token_id || pk_eqb p t22_id || pk_eqb p tw_id.
Definition nativeb (k : pubkey) : bool := pk_eqb k native_mint_id || pk_eqb k native_mint_2022_id.
Definition unsignedb (accounts : list info) : bool := forallb (fun i => negb (i_signer i && is_tw_pda (i_key i))) accounts.
Definition next (l : ledger) (c : cmd) : option ledger :=
  match c with
  | CFund k n => if ruledb (a_owner (l k)) || nativeb k then None else Some (upd l k (with_lamports n (l k)))
  | CAlloc k size n p =>
      if ruledb (a_owner (l k)) || nativeb k || is_tw_pda k || is_ata k then None else Some (upd l k (mkAcc n (DRaw (zeros size)) p))
  | CTok p accounts ix =>
      if (pk_eqb p spl_token_id || pk_eqb p t22_id) && unsignedb accounts
      then match tok_exec demo_env p false accounts ix l with Ok l' => Some l' | Err _ => None end else None
  | CAta p wallet mnt =>
      if pk_eqb p spl_token_id || pk_eqb p t22_id
      then match ata_create demo_env p wallet mnt l with Ok l' => Some l' | Err _ => None end else None
  | CTw i =>
      if pk_eqb (tx_prog i) tw_id && unsignedb (tx_metas i)
      then match process_instruction demo_env (mkCtx tw_id (tx_metas i)) (tx_data i) l with Ok l' => Some l' | Err _ => None end else None
  end.
Fixpoint play (cs : list cmd) (past : list ledger) (l : ledger) : option (list ledger * ledger) :=
  match cs with
  | [] => Some (past, l)
  | c :: r => match next l c with Some l' => play r (l :: past) l' | None => None end
  end.

Lemma demo_lawful : lawful demo_env demo_env.
Proof.
  split; [apply same_curve_refl|]. intros p ms n l l' H. cbn in H. inversion H; subst l'.
  eapply fs_world; [|apply fs_none]. intro k. assert (E : confine ms (hook_may l) l l k = l k) by (unfold confine; destruct (_ && _); reflexivity).
  rewrite E. repeat split; auto; try lia; intros; try contradiction.
Qed.
Lemma ruledb_false p : ruledb p = false -> ~ ruled p.
Proof.
  unfold ruledb, ruled. intros H Q. apply orb_false_iff in H. destruct H as [H H3]. apply orb_false_iff in H. destruct H as [H1 H2].
  apply pk_eqb_neq in H1, H2, H3. destruct Q as [Q|[Q|Q]]; contradiction.
Qed.
Lemma nativeb_false k : nativeb k = false -> ~ native_mint k.
Proof.
  unfold nativeb, native_mint. intros H Q. apply orb_false_iff in H. destruct H as [H1 H2]. apply pk_eqb_neq in H1, H2. destruct Q; contradiction.
Qed.
Lemma unsignedb_true accounts : unsignedb accounts = true -> no_tw_signer accounts.
Proof.
  unfold unsignedb, no_tw_signer. rewrite forallb_forall. intros H k (i & Hi & <- & S). specialize (H i Hi). rewrite S in H. cbn in H.
  now apply negb_true_iff in H.
Qed.
Lemma world_upd l k a :
  ~ ruled (a_owner (l k)) -> ~ native_mint k -> (is_tw_pda k = true \/ is_ata k = true -> a_data a = a_data (l k) /\ a_owner a = a_owner (l k)) ->
  (ruled (a_owner a) -> exists n, a_data a = DRaw (zeros n)) -> world_change l (upd l k a).
Proof.
  intros N1 N2 P Z k'. destruct (pk_dec k k') as [<-|Hne].
  - rewrite upd_same. split; [intro R; contradiction|]. split; [intro Q; exact (P (or_introl Q))|]. split; [intros _ R; left; exact (Z R)|].
    split; [intro R; contradiction|]. intro Q; exact (P (or_intror Q)).
  - rewrite upd_other by exact Hne. split; [intros _; repeat split; lia|]. split; [intros _; auto|]. split; [intros A B; contradiction|]. split; [intros _; left; auto|intros _; auto].
Qed.
Lemma next_step l c l' : next l c = Some l' -> exists a, step demo_env a l l'.
Proof.
  destruct c as [k n|k size n p|p accounts ix|p wallet mnt|i]; cbn [next]; intro H.
  - destruct (ruledb (a_owner (l k))) eqn:E1; [discriminate|]. destruct (nativeb k) eqn:E2; [discriminate|]. inversion H; subst l'.
    exists AWorld. constructor. apply world_upd; [exact (ruledb_false _ E1)|exact (nativeb_false _ E2)|intros _; split; reflexivity|].
    intro R. exfalso. exact (ruledb_false _ E1 R).
  - destruct (ruledb (a_owner (l k))) eqn:E1; [discriminate|]. destruct (nativeb k) eqn:E2; [discriminate|]. destruct (is_tw_pda k) eqn:E3; [discriminate|].
    destruct (is_ata k) eqn:E4; [discriminate|]. inversion H; subst l'. exists AWorld. constructor. apply world_upd; [exact (ruledb_false _ E1)|exact (nativeb_false _ E2)|intros [Q|Q]; congruence|].
    intros _. exists size. reflexivity.
  - destruct (pk_eqb p spl_token_id || pk_eqb p t22_id) eqn:E1; [|discriminate]. destruct (unsignedb accounts) eqn:E2; [|discriminate]. cbn [andb] in H.
    destruct (tok_exec demo_env p false accounts ix l) as [x|] eqn:E3; [|discriminate]. inversion H; subst x.
    exists (ATokenProgram demo_env p false accounts ix). constructor; [exact demo_lawful| |exact (unsignedb_true _ E2)|exact E3].
    apply orb_true_iff in E1. destruct E1 as [E1|E1]; apply pk_eqb_eq in E1; [left|right]; exact E1.
  - destruct (pk_eqb p spl_token_id || pk_eqb p t22_id) eqn:E1; [|discriminate].
    destruct (ata_create demo_env p wallet mnt l) as [x|] eqn:E3; [|discriminate]. inversion H; subst x.
    exists (AAssociated demo_env p wallet mnt). constructor; [exact demo_lawful| |exact E3].
    apply orb_true_iff in E1. destruct E1 as [E1|E1]; apply pk_eqb_eq in E1; [left|right]; exact E1.
  - destruct (pk_eqb (tx_prog i) tw_id); [|discriminate]. destruct (unsignedb (tx_metas i)) eqn:E2; [|discriminate]. cbn [andb] in H.
    destruct (process_instruction _ _ _ _) as [x|] eqn:E3; [|discriminate]. inversion H; subst x.
    exists (ATokenWrap demo_env (tx_metas i) (tx_data i)). constructor; [exact demo_lawful|exact (unsignedb_true _ E2)|exact E3].
Qed.
Lemma play_history cs : forall past l past' l', history demo_env past l -> play cs past l = Some (past', l') -> history demo_env past' l'.
Proof.
  induction cs as [|c r IH]; cbn [play]; intros past l past' l' H P; [inversion P; subst; exact H|].
  destruct (next l c) as [l1|] eqn:E; [|discriminate]. destruct (next_step _ _ _ E) as [a S]. exact (IH _ _ _ _ (h_step _ _ _ _ _ H S) P).
Qed.
Lemma g0_genesis : genesis g0.
Proof.
  assert (O : forall k, k <> native_mint_id -> g0 k = empty_account) by (intros k N; unfold g0, ledger_of; apply upd_other; congruence).
  split; [reflexivity|]. split; [reflexivity|]. split; [|split].
  - left. unfold unallocated. rewrite O by discriminate. split; reflexivity.
  - intros k N. rewrite O; [|intro Q; apply N; left; exact Q]. intros [Q|[Q|Q]]; discriminate.
  - intros k P. unfold unallocated. rewrite O; [split; reflexivity|intros ->; destruct P; discriminate].
Qed.

(** The demo: an SPL Token mint, 1000 tokens minted to Alice; the wrapped Token-2022 mint is created,
    300 tokens are wrapped and 100 unwrapped; then Alice sends 50 wrapped tokens to Bob. *)
Definition setup : list cmd :=
  [ CFund d_alice 5000; CFund (d_w t22_id) 4000; CFund (d_b t22_id) 4000;
    CAlloc d_u 82 5000 spl_token_id; CAlloc d_alice_u 165 5000 spl_token_id;
    CFund (d_esc spl_token_id t22_id) 5000; CAlloc d_alice_w 165 5000 t22_id; CAlloc d_bob_w 165 5000 t22_id;
    CTok spl_token_id [meta_w d_u false] (TiInitializeMint2 6 d_mintauth (Some d_freeze));
    CTok spl_token_id [meta_w d_alice_u false; meta_r d_u false] (TiInitializeAccount d_alice false);
    CTok spl_token_id [meta_w d_u false; meta_w d_alice_u false; meta_r d_mintauth true] (TiMintTo 1000);
    CAta spl_token_id (d_a t22_id) d_u;
    CTw i_create;
    CTok t22_id [meta_w d_alice_w false; meta_r (d_w t22_id) false] (TiInitializeAccount d_alice false);
    CTok t22_id [meta_w d_bob_w false; meta_r (d_w t22_id) false] (TiInitializeAccount d_bob false) ].
Definition send_bob : cmd :=
  CTok t22_id [meta_w d_alice_w false; meta_r (d_w t22_id) false; meta_w d_bob_w false; meta_r d_alice true] (TiTransferChecked 50 6).
Definition d_pointer : cmd := CTw (build_set_canonical_pointer tw_id d_mintauth (canonical_pointer_of demo_env d_u) d_u (repeat 7 32)).
Definition played (cs : list cmd) : list ledger * ledger := match play cs [] g0 with Some x => x | None => ([], g0) end.
Definition past_of (cs : list cmd) : list ledger := fst (played cs).
Definition now_of (cs : list cmd) : ledger := snd (played cs).
Definition playable (cs : list cmd) : bool := match play cs [] g0 with Some _ => true | None => false end.
Lemma played_history cs : playable cs = true -> history demo_env (past_of cs) (now_of cs).
Proof.
  unfold playable, past_of, now_of, played. destruct (play cs [] g0) as [[past l]|] eqn:E; [|discriminate]. intros _. cbn.
  exact (play_history cs _ _ _ _ (h_genesis _ _ g0_genesis) E).
Qed.
Definition story : list cmd := setup ++ [CTw (i_wrap 300); CTw (i_unwrap 100); send_bob].
Example story_playable : playable story = true /\ supply (now_of story) (d_w t22_id) = 200 /\
  balance (now_of story) (d_esc spl_token_id t22_id) = 200 /\ balance (now_of story) d_bob_w = 50.
Proof. vm_compute. auto. Qed.
Lemma story_no_pd : ever (no_permanent_delegate d_u) (past_of story) (now_of story).
Proof.
  assert (H : forallb (fun x => match a_data (x d_u) with DMint m => match ext_permanent_delegate m with None => true | Some _ => false end | _ => true end)
                (now_of story :: past_of story) = true) by (vm_compute; reflexivity).
  rewrite forallb_forall in H. intros x Hx m (_ & D & _). specialize (H x Hx). rewrite D in H. destruct (ext_permanent_delegate m); [discriminate|reflexivity].
Qed.
