(** * Demo.v — a concrete environment and ledger, used for satisfiability examples. *)
From Verif Require Import Base Codec State Pda TokenProg Cpi Meta Processor Builders.

Definition demo_env : env :=
  mkEnv (fun _ _ => true) (fun n => n * 10) 5 false
        (fun _ _ _ l => Ok l) (fun _ _ _ => Ok []) (fun _ _ _ => Ok [])
        (fun _ l _ => Ok l) (fun _ _ _ => Ok None) (fun _ _ => true) (fun s => str_len s)
        (fun b => PkRaw (1000 + from_le b)) (fun _ => true) 100 None
        (fun _ => ""%string) (fun _ => ""%string) (fun _ => ""%string) (fun _ => ""%string) (fun _ => ""%string)
        (fun _ => ""%string) (fun _ => ""%string)
        (fun _ => None) (fun _ => None) (fun _ => None).

Definition d_u : pubkey := PkRaw 100.         (* unwrapped mint *)
Definition d_alice : pubkey := PkRaw 101.
Definition d_alice_u : pubkey := PkRaw 102.   (* alice's unwrapped account *)
Definition d_alice_w : pubkey := PkRaw 103.   (* alice's wrapped account *)
Definition d_mintauth : pubkey := PkRaw 104.
Definition d_freeze : pubkey := PkRaw 105.
Definition d_w (wtp : pubkey) : pubkey := wrapped_mint_of demo_env d_u wtp.
Definition d_a (wtp : pubkey) : pubkey := authority_of demo_env (d_w wtp).
Definition d_b (wtp : pubkey) : pubkey := backpointer_of demo_env (d_w wtp).
Definition d_esc (utp wtp : pubkey) : pubkey := escrow_of demo_env d_u utp wtp.

Definition d_mint : mint := mkMint (Some d_mintauth) 1000 6 true (Some d_freeze) [] 82.
Definition d_tok (m o : pubkey) (n : N) : tokacc := mkTok m o n None 0 Initialized None None [].
Fixpoint ledger_of (xs : list (pubkey * account)) : ledger :=
  match xs with
  | [] => fun _ => empty_account
  | (k, a) :: r => upd (ledger_of r) k a
  end.

(** SPL Token mint wrapped into Token-2022. *)
Definition demo0 : ledger :=
  ledger_of [ (d_u, mkAcc 5000 (DMint d_mint) spl_token_id);
              (d_alice, mkAcc 5000 DEmpty system_id);
              (d_alice_u, mkAcc 5000 (DTok (d_tok d_u d_alice 700)) spl_token_id);
              (d_w t22_id, mkAcc 4000 DEmpty system_id);
              (d_b t22_id, mkAcc 4000 DEmpty system_id);
              (d_esc spl_token_id t22_id, mkAcc 5000 (DTok (d_tok d_u (d_a t22_id) 0)) spl_token_id);
              (d_alice_w, mkAcc 5000 (DTok (d_tok (d_w t22_id) d_alice 0)) t22_id) ].

(** The runtime resolves each meta of a transaction instruction to an account and always has
    the program accounts at hand because they are listed among the metas. *)
Definition ctx_of (i : tw_instruction) : ctx := mkCtx (tx_prog i) (tx_metas i).
Definition run (i : tw_instruction) (l : ledger) : res ledger := process_instruction demo_env (ctx_of i) (tx_data i) l.

Definition i_create := build_create_mint tw_id (d_w t22_id) (d_b t22_id) d_u t22_id false.
Definition i_wrap n := build_wrap tw_id d_alice_w (d_w t22_id) (d_a t22_id) spl_token_id t22_id d_alice_u d_u
                         (d_esc spl_token_id t22_id) d_alice [] n.
Definition i_unwrap n := build_unwrap tw_id (d_esc spl_token_id t22_id) d_alice_u (d_a t22_id) d_u t22_id spl_token_id
                         d_alice_w (d_w t22_id) d_alice [] n.

(** Observations used in examples. *)
Definition tok_amount (l : ledger) (k : pubkey) : N :=
  match a_data (l k) with DTok t => t_amount t | _ => 0 end.
Definition mint_supply (l : ledger) (k : pubkey) : N :=
  match a_data (l k) with DMint m => m_supply m | _ => 0 end.
Fixpoint run_all (is : list tw_instruction) (l : ledger) : res ledger :=
  match is with
  | [] => Ok l
  | i :: r => l1 <- run i l ;; run_all r l1
  end.
Definition observe {A} (f : ledger -> A) (r : res ledger) : option A :=
  match r with Ok l => Some (f l) | Err _ => None end.

Example demo_create_wrap_unwrap :
  observe (fun l => (tok_amount l d_alice_u, tok_amount l (d_esc spl_token_id t22_id),
                     tok_amount l d_alice_w, mint_supply l (d_w t22_id)))
          (run_all [i_create; i_wrap 300; i_unwrap 100] demo0)
  = Some (500, 200, 200, 200).
Proof. vm_compute. reflexivity. Qed.

