(** * PropOrders.v — C66: many users wrap and unwrap the same mint.  The escrow account and the wrapped mint are
    written by all of them (so C64 does not apply), yet nobody can block or shortchange anybody: every order that
    goes through on its own goes through whatever the others do, in every order of execution, with the same effect on
    its owner's accounts, and the outcome of all is the same. *)
From Coq Require Import Permutation.
From Verif Require Import Base Codec State Pda TokenProg Cpi Ata Meta Processor Builders Tac CodecProofs PdaProofs TokProofs FrameProofs ProcProofs
  Spec SpecLemmas CreateProofs CreateSpec WrapProofs CloseProofs InvTok InvCons HistorySpec InvState InvTw InvHist EscProofs SolProofs HistProofs
  EscLive UnwrapLive WrapLive LocalSpec OrdersSpec OrdersProofs OrdersStep Demo Demo2 DemoHist PropWrap PropRedeem.

(** If each of them goes through alone, all of them go through one after the other; everybody's accounts are as if
    they had been alone; the escrow and the supply moved by the totals; nothing else changed. *)
Theorem C66_all e0 past l u utp wtp mu os :
  order_book e0 past l u utp wtp mu os -> (forall o, In o os -> exists l1, goes_through o l l1) ->
  exists l', filled os l l' /\ after_all utp wtp (wrapped_mint_of e0 u wtp) (escrow_of e0 u utp wtp) mu os l l' /\ reachable e0 l'.
Proof.
  intros (H & NP & Tu & Tw & Hu & Hook & On & St & Cap) Al.
  destruct (fill e0 u utp wtp mu (wrapped_mint_of e0 u wtp) (authority_of e0 (wrapped_mint_of e0 u wtp)) (escrow_of e0 u utp wtp) past l
              H (NP l (or_introl eq_refl)) Tu Tw eq_refl eq_refl eq_refl Hu Hook os [] past l H NP) as (past' & l' & F & Af & H' & _).
  - apply after_none.
  - exact On.
  - rewrite app_nil_r. exact St.
  - rewrite app_nil_r. exact Cap.
  - exact Al.
  - rewrite app_nil_r in Af. exists l'. split; [exact F|]. split; [exact Af|]. exists past'. exact H'.
Qed.
Print Assumptions C66_all.

Lemma order_book_perm e0 past l u utp wtp mu os os' : Permutation os os' ->
  order_book e0 past l u utp wtp mu os -> order_book e0 past l u utp wtp mu os'.
Proof.
  intros P (H & NP & Tu & Tw & Hu & Hook & On & St & Cap).
  assert (T : total_wrapped os = total_wrapped os').
  { clear -P. induction P as [|x l l' P IH|x y l|l l' l'' P1 IH1 P2 IH2]; cbn; [reflexivity| | |rewrite IH1; exact IH2].
    - fold (total_wrapped l) (total_wrapped l'). rewrite IH. reflexivity.
    - fold (total_wrapped l). destruct (o_side x), (o_side y); lia. }
  unfold order_book. rewrite <- T. split; [exact H|]. split; [exact NP|]. split; [exact Tu|]. split; [exact Tw|]. split; [exact Hu|]. split; [exact Hook|].
  split; [exact (Permutation_Forall P On)|]. split; [exact (pairs_perm strangers strangers_sym _ _ P St)|exact Cap].
Qed.
(** The order of execution does not matter: they go through in any order, and the resulting ledger is the same. *)
Theorem C66_any_order e0 past l u utp wtp mu os os' :
  order_book e0 past l u utp wtp mu os -> (forall o, In o os -> exists l1, goes_through o l l1) -> Permutation os os' ->
  exists l1 l2, filled os l l1 /\ filled os' l l2 /\ forall k, l1 k = l2 k.
Proof.
  intros B Al P. destruct (C66_all _ _ _ _ _ _ _ _ B Al) as (l1 & F1 & A1 & _).
  destruct (C66_all _ _ _ _ _ _ _ _ (order_book_perm _ _ _ _ _ _ _ _ _ P B)) as (l2 & F2 & A2 & _).
  - intros o O. apply Al. exact (Permutation_in o (Permutation_sym P) O).
  - exists l1, l2. split; [exact F1|]. split; [exact F2|].
    apply (after_all_fun utp wtp (wrapped_mint_of e0 u wtp) (escrow_of e0 u utp wtp) mu os l l1 l2 Al A1).
    exact (after_all_perm _ _ _ _ _ _ _ _ _ (Permutation_sym P) A2).
Qed.
Print Assumptions C66_any_order.

(** Nobody can block or help anybody: an order goes through after any orders of strangers exactly if it goes through
    without them, and then does the same to its owner's accounts. *)
Lemma filled_fun os l l1 : filled os l l1 -> forall l2, filled os l l2 -> l1 = l2.
Proof.
  induction 1 as [|o os l l1 l2 G F IH]; intros l' H; inversion H as [|? ? ? l1' ? G' F']; subst; [reflexivity|].
  apply IH. assert (E : l1 = l1') by (unfold goes_through, succeeds in G, G'; rewrite G in G'; injection G' as <-; reflexivity). rewrite E. exact F'.
Qed.
Lemma filled_history e0 u utp wtp os : Forall (order_on e0 u utp wtp) os -> forall past l l', history e0 past l -> filled os l l' -> exists past', history e0 past' l'.
Proof.
  induction os as [|o os IH]; intros On past l l' H F; inversion F as [|? ? ? l1 ? G F']; subst; [exists past; exact H|].
  inversion On as [|? ? On1 On2]; subst. destruct On1 as (Law & _ & NS & _).
  destruct (goes_step e0 o l l1 Law NS G) as (act & S). exact (IH On2 _ _ _ (h_step e0 past l act l1 H S) F').
Qed.
(** Orders that have been filled had all gone through on their own as well. *)
Lemma filled_back e0 past0 l u utp wtp mu w a esc :
  history e0 past0 l -> ever (no_permanent_delegate u) past0 l -> spl_or_t22 utp -> spl_or_t22 wtp ->
  w = wrapped_mint_of e0 u wtp -> a = authority_of e0 w -> esc = escrow_of e0 u utp wtp ->
  mint_account l u utp mu -> ext_hook mu = None ->
  forall os done past lm lm', history e0 past lm -> ever (no_permanent_delegate u) past lm -> after_all utp wtp w esc mu done l lm ->
  Forall (order_on e0 u utp wtp) os -> ForallOrdPairs strangers (os ++ done) ->
  (native_mint u -> balance l esc + total_wrapped (os ++ done) < two64) ->
  filled os lm lm' ->
  (forall o, In o os -> exists l1, goes_through o l l1) /\ after_all utp wtp w esc mu (os ++ done) l lm' /\
  exists past', history e0 past' lm' /\ ever (no_permanent_delegate u) past' lm'.
Proof.
  intros H0 NP0 Tu Tw Ew Ea Ee Hu Hook. induction os as [|o os IH]; intros done past lm lm' H NP Af On Str Cap F.
  - inversion F. subst. split; [intros o []|]. split; [exact Af|]. exists past. auto.
  - inversion On as [|? ? On1 On2]; subst x l0. cbn [app] in Str. inversion Str as [|? ? St1 St2]; subst a0 l0.
    inversion F as [|? ? ? lm1 ? G F']; subst o0 os0 l0 l2.
    assert (P : Permutation (o :: os ++ done) (os ++ o :: done)) by apply Permutation_middle.
    assert (TW : forall xs ys, total_wrapped (xs ++ ys) = total_wrapped xs + total_wrapped ys).
    { intros xs ys. induction xs as [|x xs IHx]; [reflexivity|]. cbn. fold (total_wrapped (xs ++ ys)) (total_wrapped xs). rewrite IHx. destruct (o_side x); lia. }
    assert (TW1 : forall x xs, total_wrapped (x :: xs) = (match o_side x with Wraps => o_amount x | Unwraps => 0 end) + total_wrapped xs).
    { intros x xs. cbn. fold (total_wrapped xs). destruct (o_side x); lia. }
    assert (St : Forall (strangers o) done) by (apply Forall_app in St1; exact (proj2 St1)).
    assert (Cap1 : native_mint u -> balance l esc + total_wrapped (o :: done) < two64).
    { intro Nn. specialize (Cap Nn). cbn [app] in Cap. rewrite TW1, TW in Cap. rewrite TW1. clear -Cap. lia. }
    destruct (order_back e0 u utp wtp mu w a esc past0 l past done lm o lm1 H0 NP0 H (NP lm (or_introl eq_refl)) Tu Tw Ew Ea Ee Hu Hook Af On1 St Cap1 G) as (l1 & Gl).
    destruct (order_step e0 u utp wtp mu w a esc past0 l past done lm o l1 H0 (NP0 l (or_introl eq_refl)) H NP Tu Tw Ew Ea Ee Hu Hook Af On1 St Cap1 Gl) as (lm1' & G1 & Af1 & H1 & NP1).
    assert (E : lm1' = lm1) by (unfold goes_through, succeeds in G, G1; rewrite G in G1; injection G1 as <-; reflexivity). subst lm1'.
    destruct (IH (o :: done) (lm :: past) lm1 lm' H1 NP1 Af1 On2) as (Al & Af' & Hp).
    + exact (pairs_perm strangers strangers_sym _ _ P Str).
    + intro Nn. specialize (Cap Nn). cbn [app] in Cap. rewrite TW1, TW in Cap. rewrite TW, TW1. clear -Cap. lia.
    + exact F'.
    + split; [intros x [X|X]; [subst x; exists l1; exact Gl|exact (Al x X)]|].
      split; [exact (after_all_perm _ _ _ _ _ _ _ _ _ (Permutation_sym P) Af')|exact Hp].
Qed.
Theorem C66_unaffected e0 past l u utp wtp mu o others lm :
  order_book e0 past l u utp wtp mu (o :: others) -> filled others l lm ->
  ((exists l1, goes_through o l l1) <-> (exists l2, goes_through o lm l2)) /\
  forall l1 l2, goes_through o l l1 -> goes_through o lm l2 ->
    l2 (o_source o) = l1 (o_source o) /\ l2 (o_recipient o) = l1 (o_recipient o).
Proof.
  intros (H & NP & Tu & Tw & Hu & Hook & On & St & Cap) F.
  inversion On as [|? ? On1 On2]; subst x l0. inversion St as [|? ? St1 St2]; subst a l0.
  assert (Cap2 : native_mint u -> balance l (escrow_of e0 u utp wtp) + total_wrapped others < two64).
  { intro Nn. specialize (Cap Nn). cbn in Cap. fold (total_wrapped others) in Cap. destruct (o_side o); lia. }
  destruct (filled_back e0 past l u utp wtp mu (wrapped_mint_of e0 u wtp) (authority_of e0 (wrapped_mint_of e0 u wtp)) (escrow_of e0 u utp wtp)
              H NP Tu Tw eq_refl eq_refl eq_refl Hu Hook others [] past l lm H NP (after_none _ _ _ _ _ _) On2) as (_ & Af & past' & H' & NP').
  { rewrite app_nil_r. exact St2. } { rewrite app_nil_r. exact Cap2. } { exact F. }
  rewrite app_nil_r in Af.
  assert (Fwd : forall l1, goes_through o l l1 -> exists l2, goes_through o lm l2 /\ l2 (o_source o) = l1 (o_source o) /\ l2 (o_recipient o) = l1 (o_recipient o)).
  { intros l1 G. destruct (order_step e0 u utp wtp mu (wrapped_mint_of e0 u wtp) (authority_of e0 (wrapped_mint_of e0 u wtp)) (escrow_of e0 u utp wtp)
      past l past' others lm o l1 H (NP l (or_introl eq_refl)) H' NP' Tu Tw eq_refl eq_refl eq_refl Hu Hook Af On1 St1 Cap G) as (l2 & G2 & (i & ou & f & _ & Own & _) & _).
    exists l2. split; [exact G2|]. apply (Own o l1); [left; reflexivity|exact G]. }
  split; [split|].
  - intros (l1 & G). destruct (Fwd l1 G) as (l2 & G2 & _). exists l2. exact G2.
  - intros (l2 & G). exact (order_back e0 u utp wtp mu (wrapped_mint_of e0 u wtp) (authority_of e0 (wrapped_mint_of e0 u wtp)) (escrow_of e0 u utp wtp)
      past l past' others lm o l2 H NP H' (NP' lm (or_introl eq_refl)) Tu Tw eq_refl eq_refl eq_refl Hu Hook Af On1 St1 Cap G).
  - intros l1 l2 G1 G2. destruct (Fwd l1 G1) as (l2' & G2' & R).
    assert (E : l2' = l2) by (unfold goes_through, succeeds in G2, G2'; rewrite G2 in G2'; injection G2' as <-; reflexivity). rewrite E in R. exact R.
Qed.
Print Assumptions C66_unaffected.

(** All of them go through, in this or any order, exactly if each of them goes through alone. *)
Theorem C66_together_iff_alone e0 past l u utp wtp mu os :
  order_book e0 past l u utp wtp mu os ->
  ((exists l', filled os l l') <-> (forall o, In o os -> exists l1, goes_through o l l1)).
Proof.
  intro B. split.
  - intros (l' & F). destruct B as (H & NP & Tu & Tw & Hu & Hook & On & St & Cap).
    destruct (filled_back e0 past l u utp wtp mu (wrapped_mint_of e0 u wtp) (authority_of e0 (wrapped_mint_of e0 u wtp)) (escrow_of e0 u utp wtp)
                H NP Tu Tw eq_refl eq_refl eq_refl Hu Hook os [] past l l' H NP (after_none _ _ _ _ _ _) On) as (Al & _).
    { rewrite app_nil_r. exact St. } { rewrite app_nil_r. exact Cap. } { exact F. } exact Al.
  - intro Al. destruct (C66_all _ _ _ _ _ _ _ _ B Al) as (l' & F & _). exists l'. exact F.
Qed.
Print Assumptions C66_together_iff_alone.

(** ** The hypotheses are met: in the demo, Alice wraps another 100 tokens, while Bob unwraps the 50 he got from her. *)
Definition d_bob_u : pubkey := PkRaw 108.
Definition orders_story : list cmd := story ++
  [ CAlloc d_bob_u 165 5000 spl_token_id;
    CTok spl_token_id [meta_w d_bob_u false; meta_r d_u false] (TiInitializeAccount d_bob false) ].
Definition bob_unwraps n := build_unwrap tw_id (d_esc spl_token_id t22_id) d_bob_u (d_a t22_id) d_u t22_id spl_token_id d_bob_w (d_w t22_id) d_bob [] n.
Definition alice_order : order := mkOrder demo_env (tx_metas (i_wrap 100)) Wraps 100 d_alice_u d_alice_w d_alice.
Definition bob_order : order := mkOrder demo_env (tx_metas (bob_unwraps 50)) Unwraps 50 d_bob_w d_bob_u d_bob.
Lemma orders_no_pd : ever (no_permanent_delegate d_u) (past_of orders_story) (now_of orders_story).
Proof.
  assert (H : forallb (fun x => match a_data (x d_u) with DMint m => match ext_permanent_delegate m with None => true | Some _ => false end | _ => true end)
                (now_of orders_story :: past_of orders_story) = true) by (vm_compute; reflexivity).
  rewrite forallb_forall in H. intros x Hx m (_ & D & _). specialize (H x Hx). rewrite D in H. destruct (ext_permanent_delegate m); [discriminate|reflexivity].
Qed.
Lemma demo_ignores : ignores_turnover demo_env.
Proof. intros accounts esc w l1 l2 _. split; intros; reflexivity. Qed.
Definition unsigned_pdas (accounts : list info) : bool := forallb (fun i => negb (i_signer i && is_tw_pda (i_key i))) accounts.
Lemma unsigned_pdas_true accounts : unsigned_pdas accounts = true -> no_tw_signer accounts.
Proof.
  unfold unsigned_pdas. rewrite forallb_forall. intros H k (i & Hi & Hk & Hs). specialize (H i Hi). rewrite Hk, Hs in H. destruct (is_tw_pda k); [discriminate|reflexivity].
Qed.
Lemma strangers_b x y :
  forallb (fun k => negb (existsb (pk_eqb k) (keys (o_accounts y)))) [o_source x; o_recipient x] &&
  forallb (fun k => negb (existsb (pk_eqb k) (keys (o_accounts x)))) [o_source y; o_recipient y] = true -> strangers x y.
Proof.
  intro B. apply andb_true_iff in B. destruct B as [B1 B2].
  assert (G : forall (a b : order), forallb (fun k => negb (existsb (pk_eqb k) (keys (o_accounts b)))) [o_source a; o_recipient a] = true ->
    forall k, owns a k -> ~ In k (keys (o_accounts b))).
  { intros a b Q k O I. rewrite forallb_forall in Q.
    assert (X : negb (existsb (pk_eqb k) (keys (o_accounts b))) = true) by (apply Q; destruct O as [-> | ->]; [left|right; left]; reflexivity).
    assert (Y : existsb (pk_eqb k) (keys (o_accounts b)) = true) by (apply existsb_exists; exists k; split; [exact I|apply pk_eqb_refl]).
    rewrite Y in X. discriminate X. }
  intro k. split; apply G; assumption.
Qed.
Lemma on_demo o : o_env o = demo_env -> unsigned_pdas (o_accounts o) = true -> o_amount o < two64 ->
  pk_eqb (o_recipient o) (d_esc spl_token_id t22_id) = false ->
  keys_are (o_accounts o)
    (match o_side o with
     | Wraps => [o_recipient o; d_w t22_id; d_a t22_id; spl_token_id; t22_id; o_source o; d_u; d_esc spl_token_id t22_id; o_authority o]
     | Unwraps => [d_esc spl_token_id t22_id; o_recipient o; d_a t22_id; d_u; t22_id; spl_token_id; o_source o; d_w t22_id; o_authority o]
     end) -> order_on demo_env d_u spl_token_id t22_id o.
Proof.
  intros E U L R K. unfold order_on. rewrite E. split; [exact demo_lawful|]. split; [exact demo_ignores|]. split; [exact (unsigned_pdas_true _ U)|].
  split; [exact L|]. split; [apply pk_eqb_neq; exact R|]. exact K.
Qed.
Lemma demo_book : exists mu, order_book demo_env (past_of orders_story) (now_of orders_story) d_u spl_token_id t22_id mu [alice_order; bob_order].
Proof.
  assert (M : exists mu, a_data (now_of orders_story d_u) = DMint mu) by (eexists; vm_compute; reflexivity). destruct M as [mu Hm]. exists mu.
  split; [apply played_history; vm_compute; reflexivity|]. split; [exact orders_no_pd|]. split; [left; reflexivity|]. split; [right; reflexivity|].
  split; [split; [vm_compute; reflexivity|split; [exact Hm|]]|].
  { assert (X : match a_data (now_of orders_story d_u) with DMint m => m_init m | _ => false end = true) by (vm_compute; reflexivity). rewrite Hm in X. exact X. }
  split.
  { assert (X : match a_data (now_of orders_story d_u) with DMint m => match ext_hook m with None => true | _ => false end | _ => false end = true) by (vm_compute; reflexivity).
    rewrite Hm in X. destruct (ext_hook mu); [discriminate X|reflexivity]. }
  split.
  { apply Forall_cons; [|apply Forall_cons; [|apply Forall_nil]]; apply on_demo; try reflexivity; try (vm_compute; reflexivity); exists []; reflexivity. }
  split.
  { apply FOP_cons; [apply Forall_cons; [|apply Forall_nil]|apply FOP_cons; [apply Forall_nil|apply FOP_nil]]. apply strangers_b. vm_compute. reflexivity. }
  intros [X|X]; exfalso; vm_compute in X; discriminate X.
Qed.
Definition after_run (os : list order) (l : ledger) : res ledger :=
  fold_left (fun r o => bind r (fun x => outcome (o_env o) (o_accounts o) (o_instruction o) x)) os (Ok l).
Lemma after_run_filled os : forall l l', filled os l l' -> after_run os l = Ok l'.
Proof.
  unfold after_run. induction os as [|o os IH]; intros l l' F; inversion F as [|? ? ? l1 ? G F']; subst; [reflexivity|].
  cbn [fold_left bind]. unfold goes_through, succeeds in G. rewrite G. exact (IH _ _ F').
Qed.
Lemma ok_of {A} (r : res A) : match r with Ok _ => true | Err _ => false end = true -> exists x, r = Ok x.
Proof. destruct r; [eexists; reflexivity|discriminate]. Qed.
Example C66_example : exists mu l1 l2,
  order_book demo_env (past_of orders_story) (now_of orders_story) d_u spl_token_id t22_id mu [alice_order; bob_order] /\
  filled [alice_order; bob_order] (now_of orders_story) l1 /\ filled [bob_order; alice_order] (now_of orders_story) l2 /\ (forall k, l1 k = l2 k) /\
  (tok_amount (now_of orders_story) (d_esc spl_token_id t22_id), mint_supply (now_of orders_story) (d_w t22_id)) = (200, 200) /\
  (tok_amount l1 (d_esc spl_token_id t22_id), mint_supply l1 (d_w t22_id)) = (250, 250) /\
  (tok_amount l1 d_alice_w, tok_amount l1 d_bob_u) = (250, 50).
Proof.
  destruct demo_book as (mu & B). exists mu.
  destruct (C66_any_order demo_env _ _ d_u spl_token_id t22_id mu _ [bob_order; alice_order] B) as (l1 & l2 & F1 & F2 & E).
  - intros o [O|[O|[]]]; subst o; apply ok_of; vm_compute; reflexivity.
  - apply perm_swap.
  - exists l1, l2. split; [exact B|]. split; [exact F1|]. split; [exact F2|]. split; [exact E|]. split; [vm_compute; reflexivity|].
    apply after_run_filled in F1.
    assert (X : match after_run [alice_order; bob_order] (now_of orders_story) with
      | Ok l => (tok_amount l (d_esc spl_token_id t22_id), mint_supply l (d_w t22_id), (tok_amount l d_alice_w, tok_amount l d_bob_u)) | Err _ => (0, 0, (0, 0)) end
      = (250, 250, (250, 50))) by (vm_compute; reflexivity).
    rewrite F1 in X. apply pair_equal_spec in X. exact X.
Qed.

(** ** A permanent delegate spoils it (see C21): it has printed wrapped tokens out of the escrow.  Alice's and Bob's Unwrap
    each go through alone; whoever comes second gets nothing. *)
Definition pd_start : ledger := upd demo_pd d_bob_u (mkAcc 5000 (DTok (d_x_tok d_u d_bob 0 [])) t22_id).
Definition pd_state : ledger := after [x_create; x_wrap 300; x_self 300] pd_start.
Definition pd_bob_unwraps n := build_unwrap tw_id (d_esc t22_id spl_token_id) d_bob_u (d_a spl_token_id) d_u spl_token_id t22_id d_bob_w (d_w spl_token_id) d_bob [] n.
Definition pd_alice : order := mkOrder demo_env (tx_metas (x_unwrap 300)) Unwraps 300 d_alice_w d_alice_u d_alice.
Definition pd_bob : order := mkOrder demo_env (tx_metas (pd_bob_unwraps 300)) Unwraps 300 d_bob_w d_bob_u d_bob.
Example C66_permanent_delegate :
  strangers pd_alice pd_bob /\ (exists l1, goes_through pd_alice pd_state l1) /\ (exists l1, goes_through pd_bob pd_state l1) /\
  ~ (exists l', filled [pd_alice; pd_bob] pd_state l') /\ ~ (exists l', filled [pd_bob; pd_alice] pd_state l').
Proof.
  split; [apply strangers_b; vm_compute; reflexivity|]. split; [apply ok_of; vm_compute; reflexivity|]. split; [apply ok_of; vm_compute; reflexivity|].
  assert (N : forall os, match after_run os pd_state with Ok _ => true | Err _ => false end = false -> ~ (exists l', filled os pd_state l')).
  { intros os X (l' & F). rewrite (after_run_filled _ _ _ F) in X. discriminate X. }
  split; apply N; vm_compute; reflexivity.
Qed.
(** Users who are not strangers depend on each other: who takes both sides of the same account has to wrap first. *)
Definition first_wrap : order := mkOrder demo_env (tx_metas (i_wrap 300)) Wraps 300 d_alice_u d_alice_w d_alice.
Definition then_unwrap : order := mkOrder demo_env (tx_metas (i_unwrap 400)) Unwraps 400 d_alice_w d_alice_u d_alice.
Example C66_not_strangers :
  (exists l', filled [first_wrap; then_unwrap] (now_of orders_story) l') /\ ~ (exists l', filled [then_unwrap; first_wrap] (now_of orders_story) l') /\
  ~ strangers first_wrap then_unwrap.
Proof.
  split; [|split].
  - destruct (ok_of (after_run [first_wrap; then_unwrap] (now_of orders_story))) as (l' & E); [vm_compute; reflexivity|].
    unfold after_run in E. cbn [fold_left bind] in E. apply bind_ok in E. destruct E as (l1 & E1 & E2).
    exists l'. exact (f_next _ _ _ _ _ E1 (f_next _ _ _ _ _ E2 (f_none _))).
  - intros (l' & F). apply after_run_filled in F.
    assert (X : match after_run [then_unwrap; first_wrap] (now_of orders_story) with Ok _ => true | Err _ => false end = false) by (vm_compute; reflexivity).
    rewrite F in X. discriminate X.
  - intro S. destruct (S d_alice_w) as [A _]. apply A; [right; reflexivity|]. do 6 right. left. reflexivity.
Qed.
