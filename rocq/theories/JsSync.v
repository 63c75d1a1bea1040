(** * JsSync.v — the two metadata-sync programs of the JavaScript client
    (/repo/clients/js/src/examples/sync-spl-to-token2022.ts, sync-token2022-to-spl.ts), up to signing and sending (Js.v, Cli.v). *)
From Verif Require Import Base Codec State Pda TokenProg Cpi Ata Meta Processor Builders Cli Js.

(** The Metaplex address of a mint, as both programs derive it: sync-spl-to-token2022.ts:54-62, sync-token2022-to-spl.ts:63-72 *)
Definition js_metaplex (e : env) (m : pubkey) : res pubkey := js_pda e (str_atoms "metadata" ++ [inr mpl_id; inr m]) mpl_id.
(** sync-spl-to-token2022.ts:51-78; the payer alone signs (80-86) *)
Definition js_example_sync_to_token_2022 (e : env) (u : pubkey) : res (list js_ix) :=
  md <- js_metaplex e u ;;                                                                        (* 54-62 *)
  w <- js_wrapped_mint e u t22_id ;;                                                              (* 63-66 *)
  a <- js_authority e w ;;                                                                        (* 67-69 *)
  Ok [mkJsIx (TxTokenWrap (js_sync_to_token_2022 tw_id w a u None (Some md) None)) []].           (* 71-78 *)
(** sync-token2022-to-spl.ts:57-83; the payer alone signs (85-91) *)
Definition js_example_sync_to_spl_token (e : env) (u : pubkey) : res (list js_ix) :=
  w <- js_wrapped_mint e u spl_token_id ;;                                                        (* 58-61 *)
  md <- js_metaplex e w ;;                                                                        (* 63-72 *)
  a <- js_authority e w ;;                                                                        (* 74-76 *)
  Ok [mkJsIx (TxTokenWrap (js_sync_to_spl_token tw_id md a w u None None None None None)) []].    (* 78-83 *)
