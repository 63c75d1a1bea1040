(** * Demo2.v — a second concrete ledger: a Token-2022 mint with chosen extensions, wrapped
    into SPL Token. *)
From Verif Require Import Base Codec State Pda TokenProg Cpi Meta Processor Builders Demo.

Definition d_bob : pubkey := PkRaw 106.       (* permanent delegate in some examples *)
Definition d_bob_w : pubkey := PkRaw 107.
Definition d_x_mint (exts : list mint_ext) : mint := mkMint (Some d_mintauth) 1000 6 true None exts (mint_space exts).
Definition d_x_tok (m o : pubkey) (n : N) (x : list acct_ext) : tokacc := mkTok m o n None 0 Initialized None None x.
Definition d_x (exts : list mint_ext) (acct : list acct_ext) (escrowed : N) : ledger :=
  ledger_of [ (d_u, mkAcc 9000 (DMint (d_x_mint exts)) t22_id);
              (d_alice, mkAcc 5000 DEmpty system_id);
              (d_alice_u, mkAcc 5000 (DTok (d_x_tok d_u d_alice 700 acct)) t22_id);
              (d_w spl_token_id, mkAcc 4000 DEmpty system_id);
              (d_b spl_token_id, mkAcc 4000 DEmpty system_id);
              (d_esc t22_id spl_token_id, mkAcc 5000 (DTok (d_x_tok d_u (d_a spl_token_id) escrowed (AxImmutableOwner :: acct))) t22_id);
              (d_alice_w, mkAcc 5000 (DTok (d_tok (d_w spl_token_id) d_alice 0)) spl_token_id);
              (d_bob_w, mkAcc 5000 (DTok (d_tok (d_w spl_token_id) d_bob 0)) spl_token_id) ].
Definition x_create := build_create_mint tw_id (d_w spl_token_id) (d_b spl_token_id) d_u spl_token_id false.
Definition x_wrap n := build_wrap tw_id d_alice_w (d_w spl_token_id) (d_a spl_token_id) t22_id spl_token_id d_alice_u d_u
                         (d_esc t22_id spl_token_id) d_alice [] n.
Definition x_unwrap n := build_unwrap tw_id (d_esc t22_id spl_token_id) d_alice_u (d_a spl_token_id) d_u spl_token_id t22_id
                         d_alice_w (d_w spl_token_id) d_alice [] n.
(** 1% fee, at most 10 tokens; from epoch 9 on 2%. *)
Definition d_fees : fee_config := mkFeeConfig None None 0 (mkFee 0 10 100) (mkFee 9 10 200).
Definition demo_fee : ledger := d_x [MxTransferFee d_fees] [AxTransferFeeAmount 0] 0.
Definition after (is : list tw_instruction) (l : ledger) : ledger :=
  match run_all is l with Ok l' => l' | Err _ => l end.
