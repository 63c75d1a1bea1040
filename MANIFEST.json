{
 "claims": [
  {
   "property": "C01",
   "status": "proved",
   "theorems": [
    "C01_roundtrip"
   ],
   "note": ""
  },
  {
   "property": "C02",
   "status": "proved",
   "theorems": [
    "C02_strict",
    "C02_canonical",
    "C02_unambiguous"
   ],
   "note": ""
  },
  {
   "property": "C03",
   "status": "proved",
   "theorems": [
    "C03_codes",
    "C03_rejects",
    "C03_distinct"
   ],
   "note": ""
  },
  {
   "property": "C04",
   "status": "proved",
   "theorems": [
    "C04_no_collisions",
    "C04_deterministic",
    "C04_signer_seeds",
    "C04_preimages_distinct",
    "C04_bytes_or_hash_collision",
    "C04_escrow_bytes",
    "C04_same_seeds",
    "C04_same_preimage",
    "C04_addresses"
   ],
   "note": ""
  },
  {
   "property": "C05",
   "status": "proved",
   "theorems": [
    "C05_create_mint"
   ],
   "note": ""
  },
  {
   "property": "C06",
   "status": "proved",
   "theorems": [
    "C06_create_mint_iff"
   ],
   "note": ""
  },
  {
   "property": "C07",
   "status": "proved",
   "theorems": [
    "C07_no_change",
    "C07_exact",
    "C07_after_create"
   ],
   "note": ""
  },
  {
   "property": "C08",
   "status": "proved",
   "theorems": [
    "C08_close_genuine",
    "C08_create_genuine",
    "C08_wrap_genuine",
    "C08_unwrap_genuine"
   ],
   "note": ""
  },
  {
   "property": "C09",
   "status": "proved",
   "theorems": [
    "C09_backpointer"
   ],
   "note": ""
  },
  {
   "property": "C10",
   "status": "proved",
   "theorems": [
    "C10_together"
   ],
   "note": ""
  },
  {
   "property": "C11",
   "status": "proved",
   "theorems": [
    "C11_configuration"
   ],
   "note": ""
  },
  {
   "property": "C12",
   "status": "proved",
   "theorems": [
    "C12_wrap_zero",
    "C12_unwrap_zero"
   ],
   "note": ""
  },
  {
   "property": "C13",
   "status": "proved",
   "theorems": [
    "C13_wrap",
    "C13_wrap_from_escrow"
   ],
   "note": ""
  },
  {
   "property": "C14",
   "status": "proved",
   "theorems": [
    "C14_wrap_consent"
   ],
   "note": ""
  },
  {
   "property": "C15",
   "status": "proved",
   "theorems": [
    "C15_unwrap",
    "C15_unwrap_to_escrow"
   ],
   "note": ""
  },
  {
   "property": "C16",
   "status": "proved",
   "theorems": [
    "C16_unwrap_consent",
    "C16_ownerless_refuted"
   ],
   "note": ""
  },
  {
   "property": "C17",
   "status": "proved",
   "theorems": [
    "C17_wrapped_sol",
    "C17_backed",
    "C17_backed_always"
   ],
   "note": ""
  },
  {
   "property": "C18",
   "status": "proved",
   "theorems": [
    "C18_payout"
   ],
   "note": ""
  },
  {
   "property": "C19",
   "status": "proved",
   "theorems": [
    "C19_covered",
    "C19_redeemable",
    "C19_redeemable_uncloseable"
   ],
   "note": ""
  },
  {
   "property": "C20",
   "status": "proved",
   "theorems": [
    "C20_round_trip"
   ],
   "note": ""
  },
  {
   "property": "C21",
   "status": "proved",
   "theorems": [
    "C21_backing_refuted"
   ],
   "note": ""
  },
  {
   "property": "C22",
   "status": "proved",
   "theorems": [
    "C22_close"
   ],
   "note": ""
  },
  {
   "property": "C23",
   "status": "proved",
   "theorems": [
    "C23_exact",
    "C23_healthy_refused_reachable",
    "C23_recovery",
    "C23_healthy_refused",
    "C23_stuck_closable",
    "C23_fresh_is_healthy"
   ],
   "note": ""
  },
  {
   "property": "C24",
   "status": "proved",
   "theorems": [
    "C24_sync_copies",
    "C24_sync_live",
    "C24_sync_copies_reachable",
    "C24_sync_live_reachable"
   ],
   "note": ""
  },
  {
   "property": "C25",
   "status": "proved",
   "theorems": [
    "C25_confined",
    "C25_twice",
    "C25_again",
    "C25_confined_reachable",
    "C25_twice_reachable"
   ],
   "note": ""
  },
  {
   "property": "C26",
   "status": "proved",
   "theorems": [
    "C26_unique",
    "C26_refused_t22",
    "C26_refused_spl",
    "C26_complete"
   ],
   "note": ""
  },
  {
   "property": "C27",
   "status": "proved",
   "theorems": [
    "C27_round_trip",
    "C27_conversion",
    "C27_rejected"
   ],
   "note": ""
  },
  {
   "property": "C28",
   "status": "proved",
   "theorems": [
    "C28_spl",
    "C28_live",
    "C28_verified_collection_refuted"
   ],
   "note": ""
  },
  {
   "property": "C29",
   "status": "proved",
   "theorems": [
    "C29_pointer",
    "C29_refused",
    "C29_live"
   ],
   "note": ""
  },
  {
   "property": "C30",
   "status": "proved",
   "theorems": [
    "C30_pointer",
    "C30_state"
   ],
   "note": ""
  },
  {
   "property": "C31",
   "status": "proved",
   "theorems": [
    "C31_decoded",
    "C31_create_sufficient",
    "C31_close_sufficient",
    "C31_sync_token_2022_sufficient",
    "C31_sync_spl_token_sufficient",
    "C31_pointer_sufficient",
    "C31_wrap_sufficient",
    "C31_unwrap_sufficient",
    "C31_create_needs",
    "C31_wrap_needs",
    "C31_unwrap_needs",
    "C31_close_needs",
    "C31_sync_needs",
    "C31_pointer_needs",
    "C31_least_privilege",
    "C31_optional_accounts_refuted"
   ],
   "note": ""
  },
  {
   "property": "C32",
   "status": "proved",
   "theorems": [
    "C32_instruction",
    "C32_transaction"
   ],
   "note": ""
  },
  {
   "property": "C33",
   "status": "proved",
   "theorems": [
    "C33_lamports"
   ],
   "note": ""
  },
  {
   "property": "C34",
   "status": "proved",
   "theorems": [
    "C34_writable",
    "C34_ownership"
   ],
   "note": ""
  },
  {
   "property": "C35",
   "status": "proved",
   "theorems": [
    "C35_issue"
   ],
   "note": ""
  },
  {
   "property": "C36",
   "status": "proved",
   "theorems": [
    "C36_wrappable",
    "C36_wrappable_uncloseable"
   ],
   "note": ""
  },
  {
   "property": "C37",
   "status": "proved",
   "theorems": [
    "C37_genuine",
    "C37_creatable"
   ],
   "note": ""
  },
  {
   "property": "C38",
   "status": "proved",
   "theorems": [
    "C38_fits",
    "C38_never_closed",
    "C38_no_exit",
    "C38_locked",
    "C38_stale_escrow_refuted"
   ],
   "note": ""
  },
  {
   "property": "C39",
   "status": "proved",
   "theorems": [
    "C39_atomic",
    "C39_signatures",
    "C39_reachable",
    "C39_client"
   ],
   "note": ""
  },
  {
   "property": "C40",
   "status": "proved",
   "theorems": [
    "C40_creates",
    "C40_again"
   ],
   "note": ""
  },
  {
   "property": "C41",
   "status": "proved",
   "theorems": [
    "C41_creates",
    "C41_exists",
    "C41_squatted"
   ],
   "note": ""
  },
  {
   "property": "C42",
   "status": "proved",
   "theorems": [
    "C42_wraps",
    "C42_means"
   ],
   "note": ""
  },
  {
   "property": "C43",
   "status": "proved",
   "theorems": [
    "C43_unwraps",
    "C43_means"
   ],
   "note": ""
  },
  {
   "property": "C44",
   "status": "proved",
   "theorems": [
    "C44_closes",
    "C44_healthy",
    "C44_means",
    "C44_spl_token"
   ],
   "note": ""
  },
  {
   "property": "C45",
   "status": "proved",
   "theorems": [
    "C45_find_pdas"
   ],
   "note": ""
  },
  {
   "property": "C46",
   "status": "proved",
   "theorems": [
    "C46_syncs",
    "C46_first_sync",
    "C46_unset"
   ],
   "note": ""
  },
  {
   "property": "C47",
   "status": "proved",
   "theorems": [
    "C47_syncs",
    "C47_no_source"
   ],
   "note": ""
  },
  {
   "property": "C48",
   "status": "proved",
   "theorems": [
    "C48_create_close",
    "C48_wrap_unwrap",
    "C48_sync_both",
    "C48_sync_optional",
    "C48_sync_places"
   ],
   "note": ""
  },
  {
   "property": "C49",
   "status": "proved",
   "theorems": [
    "C49_parses",
    "C49_right",
    "C49_lenient",
    "C49_round_trip",
    "C49_rust_sync_refuted",
    "C49_errors"
   ],
   "note": ""
  },
  {
   "property": "C50",
   "status": "proved",
   "theorems": [
    "C50_same",
    "C50_creates"
   ],
   "note": ""
  },
  {
   "property": "C51",
   "status": "proved",
   "theorems": [
    "C51_same",
    "C51_creates",
    "C51_exists",
    "C51_squatted_refuted"
   ],
   "note": ""
  },
  {
   "property": "C52",
   "status": "proved",
   "theorems": [
    "C52_consent",
    "C52_refused",
    "C52_wraps",
    "C52_means"
   ],
   "note": ""
  },
  {
   "property": "C53",
   "status": "proved",
   "theorems": [
    "C53_unwraps",
    "C53_means",
    "C53_agrees"
   ],
   "note": ""
  },
  {
   "property": "C54",
   "status": "proved",
   "theorems": [
    "C54_sound",
    "C54_complete",
    "C54_genuine",
    "C54_junk_refuted",
    "C54_wraps",
    "C54_unwraps"
   ],
   "note": ""
  },
  {
   "property": "C55",
   "status": "proved",
   "theorems": [
    "C55_any_customizer",
    "C55_creates",
    "C55_iff",
    "C55_compliance",
    "C55_no_extension",
    "C55_unsyncable_refuted"
   ],
   "note": ""
  },
  {
   "property": "C56",
   "status": "proved",
   "theorems": [
    "C56_wrap",
    "C56_unwrap",
    "C56_create",
    "C56_close",
    "C56_sync_t22",
    "C56_sync_spl",
    "C56_pointer",
    "C56_short",
    "C56_nothing"
   ],
   "note": ""
  },
  {
   "property": "C57",
   "status": "proved",
   "theorems": [
    "C57_nested",
    "C57_tower",
    "C57_redeemable"
   ],
   "note": ""
  },
  {
   "property": "C58",
   "status": "proved",
   "theorems": [
    "C58_inert",
    "C58_refuses"
   ],
   "note": ""
  },
  {
   "property": "C59",
   "status": "proved",
   "theorems": [
    "C59_found",
    "C59_finds",
    "C59_absent",
    "C59_all",
    "C59_prefunded_refuted",
    "C59_unwraps"
   ],
   "note": ""
  },
  {
   "property": "C60",
   "status": "proved",
   "theorems": [
    "C60_creates",
    "C60_wrapped",
    "C60_demanding_refuted",
    "C60_other_program"
   ],
   "note": ""
  },
  {
   "property": "C61",
   "status": "proved",
   "theorems": [
    "C61_round_trip",
    "C61_set_up",
    "C61_life"
   ],
   "note": ""
  },
  {
   "property": "C62",
   "status": "proved",
   "theorems": [
    "C62_custody",
    "C62_freeze_authority",
    "C62_allowance",
    "C62_undisturbed"
   ],
   "note": ""
  },
  {
   "property": "C63",
   "status": "proved",
   "theorems": [
    "C63_walk_away",
    "C63_wrapped"
   ],
   "note": ""
  },
  {
   "property": "C64",
   "status": "proved",
   "theorems": [
    "C64_local",
    "C64_commute",
    "C64_each_alone",
    "C64_schedule",
    "C64_meanwhile"
   ],
   "note": ""
  },
  {
   "property": "C65",
   "status": "proved",
   "theorems": [
    "C65_no_effect",
    "C65_all_or_fee",
    "C65_message_wrap",
    "C65_message_unwrap",
    "C65_same_message",
    "C65_printed",
    "C65_bound",
    "C65_confirmed",
    "C65_plain_confirmed",
    "C65_sent",
    "C65_dry_run",
    "C65_prints",
    "C65_offline",
    "C65_team_wraps",
    "C65_team_unwraps"
   ],
   "note": ""
  },
  {
   "property": "C66",
   "status": "proved",
   "theorems": [
    "C66_all",
    "C66_any_order",
    "C66_unaffected",
    "C66_together_iff_alone"
   ],
   "note": ""
  },
  {
   "property": "C67",
   "status": "proved",
   "theorems": [
    "C67_run",
    "C67_everybody_out"
   ],
   "note": ""
  },
  {
   "property": "C68",
   "status": "proved",
   "theorems": [
    "C68_life"
   ],
   "note": ""
  },
  {
   "property": "C69",
   "status": "proved",
   "theorems": [
    "C69_to_token_2022",
    "C69_prerequisites_refuted",
    "C69_to_spl_token"
   ],
   "note": ""
  },
  {
   "property": "C70",
   "status": "proved",
   "theorems": [
    "C70_wrap_calls_once",
    "C70_unwrap_calls_once",
    "C70_refused",
    "C70_wrappable",
    "C70_redeemable",
    "C70_walk_away",
    "C70_wrap_counted",
    "C70_unwrap_counted",
    "C70_counter_agrees"
   ],
   "note": ""
  },
  {
   "property": "C71",
   "status": "proved",
   "theorems": [
    "C71_foreign_copied",
    "C71_foreign_refused",
    "C71_impersonation_refuted",
    "C71_impersonation_spl_refuted"
   ],
   "note": ""
  },
  {
   "property": "C72",
   "status": "proved",
   "theorems": [
    "C72_fits",
    "C72_limit",
    "C72_large_multisig_refuted",
    "C72_js_fits",
    "C72_same_bytes",
    "C72_versions_apart"
   ],
   "note": ""
  },
  {
   "property": "C73",
   "status": "proved",
   "theorems": [
    "C73_grows",
    "C73_lost",
    "C73_repair_blocked",
    "C73_into_escrow",
    "C73_one_token_blocks_refuted"
   ],
   "note": ""
  },
  {
   "property": "C74",
   "status": "proved",
   "theorems": [
    "C74_wrap_unfrozen",
    "C74_unwrap_unfrozen",
    "C74_thaw_needs_authority",
    "C74_hostage",
    "C74_forever",
    "C74_locked_refuted",
    "C74_renounced_refuted"
   ],
   "note": ""
  },
  {
   "property": "C75",
   "status": "proved",
   "theorems": [
    "C75_circulation",
    "C75_exists",
    "C75_outlives",
    "C75_held",
    "C75_decimals",
    "C75_redenominated_refuted"
   ],
   "note": ""
  },
  {
   "property": "C76",
   "status": "proved",
   "theorems": [
    "C76_settings",
    "C76_token_wrap",
    "C76_wrap_refused",
    "C76_unwrap_refused",
    "C76_hostage",
    "C76_forever",
    "C76_never_added",
    "C76_bypass_refuted",
    "C76_locked_refuted"
   ],
   "note": ""
  },
  {
   "property": "C77",
   "status": "proved",
   "theorems": [
    "C77_schedule",
    "C77_token_wrap",
    "C77_unwrap_pays",
    "C77_wrap_gives",
    "C77_free",
    "C77_confiscation_refuted"
   ],
   "note": ""
  },
  {
   "property": "C78",
   "status": "proved",
   "theorems": [
    "C78_default_kept",
    "C78_born_frozen",
    "C78_permission"
   ],
   "note": ""
  }
 ]
}