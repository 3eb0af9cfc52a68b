{
 "claims": [
  {
   "property": "C01",
   "status": "proved",
   "theorems": [
    "C01_round_trip",
    "C01_entry_point"
   ],
   "note": ""
  },
  {
   "property": "C02",
   "status": "proved",
   "theorems": [
    "C02_canonical",
    "C02_injective",
    "C02_trailing",
    "C02_truncated",
    "C02_tag",
    "C02_unknown_tag",
    "C02_bad_lockup",
    "C02_bad_lockup_extend",
    "C02_bad_option",
    "C02_junk_rejected"
   ],
   "note": ""
  },
  {
   "property": "C03",
   "status": "proved",
   "theorems": [
    "C03_authority_signed",
    "C03_owner_signed"
   ],
   "note": ""
  },
  {
   "property": "C04",
   "status": "proved",
   "theorems": [
    "C04_stake_accounts"
   ],
   "note": ""
  },
  {
   "property": "C05",
   "status": "proved",
   "theorems": [
    "C05_only_named_accounts"
   ],
   "note": ""
  },
  {
   "property": "C06",
   "status": "proved",
   "theorems": [
    "C06_other_pools",
    "C06_other_minings",
    "C06_hole_freezes_claim",
    "C06_hole_freezes_withdrawal",
    "C06_hole_closes"
   ],
   "note": ""
  },
  {
   "property": "C07",
   "status": "proved",
   "theorems": [
    "C07_configuration_fixed",
    "C07_initialised_once",
    "C07_created"
   ],
   "note": ""
  },
  {
   "property": "C08",
   "status": "proved",
   "theorems": [
    "C08_created_at_derived_address",
    "C08_identity_fixed"
   ],
   "note": ""
  },
  {
   "property": "C09",
   "status": "proved",
   "theorems": [
    "C09_history_only_grows",
    "C09_mining_index_only_grows"
   ],
   "note": ""
  },
  {
   "property": "C10",
   "status": "proved",
   "theorems": [
    "C10_second_distribution",
    "C10_recorded",
    "C10_one_per_day"
   ],
   "note": ""
  },
  {
   "property": "C11",
   "status": "proved",
   "theorems": [
    "C11_full_forever",
    "C11_full_distribution",
    "C11_pays_nobody"
   ],
   "note": ""
  },
  {
   "property": "C12",
   "status": "proved",
   "theorems": [
    "C12_amount",
    "C12_bounds"
   ],
   "note": ""
  },
  {
   "property": "C13",
   "status": "proved",
   "theorems": [
    "C13_exhausts",
    "C13_last"
   ],
   "note": ""
  },
  {
   "property": "C14",
   "status": "proved",
   "theorems": [
    "C14_distribution"
   ],
   "note": ""
  },
  {
   "property": "C15",
   "status": "proved",
   "theorems": [
    "C15_refresh"
   ],
   "note": ""
  },
  {
   "property": "C16",
   "status": "proved",
   "theorems": [
    "C16_idempotent",
    "C16_path"
   ],
   "note": ""
  },
  {
   "property": "C17",
   "status": "proved",
   "theorems": [
    "C17_expiry"
   ],
   "note": ""
  },
  {
   "property": "C18",
   "status": "proved",
   "theorems": [
    "C18_total_share_exact",
    "C18_ledger_share_exact"
   ],
   "note": ""
  },
  {
   "property": "C19",
   "status": "proved",
   "theorems": [
    "C19_total_share_covers",
    "C19_close_leaves_pool",
    "C19_decrease_leaves_pool",
    "C19_ledger_share_covers"
   ],
   "note": ""
  },
  {
   "property": "C20",
   "status": "proved",
   "theorems": [
    "C20_solvency",
    "C20_solvency_claims",
    "C20_ledger_solvency"
   ],
   "note": ""
  },
  {
   "property": "C21",
   "status": "proved",
   "theorems": [
    "C21_claims_succeed",
    "C21_ledger_claims_succeed"
   ],
   "note": ""
  },
  {
   "property": "C22",
   "status": "proved",
   "theorems": [
    "C22_unlocked_withdraws",
    "C22_unlocked_withdraws_delegated",
    "C22_ledger_unlocked_withdraws"
   ],
   "note": ""
  },
  {
   "property": "C23",
   "status": "proved",
   "theorems": [
    "C23_every_condition_needed",
    "C23_stale_and_changed_delegate",
    "C23_ledger_every_condition_needed"
   ],
   "note": ""
  },
  {
   "property": "C24",
   "status": "proved",
   "theorems": [
    "C24_claim_pays",
    "C24_claim_again"
   ],
   "note": ""
  },
  {
   "property": "C25",
   "status": "proved",
   "theorems": [
    "C25_claim_bound"
   ],
   "note": ""
  },
  {
   "property": "C26",
   "status": "proved",
   "theorems": [
    "C26_fill",
    "C26_fill_rejects"
   ],
   "note": ""
  },
  {
   "property": "C27",
   "status": "proved",
   "theorems": [
    "C27_deposit"
   ],
   "note": ""
  },
  {
   "property": "C28",
   "status": "proved",
   "theorems": [
    "C28_withdraw"
   ],
   "note": ""
  },
  {
   "property": "C29",
   "status": "proved",
   "theorems": [
    "C29_slash",
    "C29_unscheduled"
   ],
   "note": ""
  },
  {
   "property": "C30",
   "status": "proved",
   "theorems": [
    "C30_decrease",
    "C30_rejected"
   ],
   "note": ""
  },
  {
   "property": "C31",
   "status": "proved",
   "theorems": [
    "C31_extend",
    "C31_keeps_drops",
    "C31_stuck",
    "C31_freeze"
   ],
   "note": ""
  },
  {
   "property": "C32",
   "status": "proved",
   "theorems": [
    "C32_change",
    "C32_same_rejected"
   ],
   "note": ""
  },
  {
   "property": "C33",
   "status": "proved",
   "theorems": [
    "C33_close"
   ],
   "note": ""
  },
  {
   "property": "C34",
   "status": "proved",
   "theorems": [
    "C34_expiry",
    "C34_lockup_methods",
    "C34_deposit_none",
    "C34_extend_none"
   ],
   "note": ""
  },
  {
   "property": "C35",
   "status": "proved",
   "theorems": [
    "C35_lookup",
    "C35_unique",
    "C35_model"
   ],
   "note": ""
  },
  {
   "property": "C36",
   "status": "proved",
   "theorems": [
    "C36_deposit_scheduled",
    "C36_extend_scheduled",
    "C36_cleared",
    "C36_unscheduled"
   ],
   "note": ""
  },
  {
   "property": "C37",
   "status": "proved",
   "theorems": [
    "C37_builders_complete",
    "C37_flags_suffice",
    "C37_generated_data",
    "C37_generated_extend_rejected",
    "C37_generated_close",
    "C37_generated_deposit",
    "C37_generated_withdraw",
    "C37_generated_arguments"
   ],
   "note": ""
  },
  {
   "property": "C38",
   "status": "proved",
   "theorems": [
    "C38_mining_header",
    "C38_pool_header",
    "C38_mining_layout",
    "C38_pool_layout",
    "C38_mining_offsets",
    "C38_pool_offsets",
    "C38_lengths"
   ],
   "note": ""
  },
  {
   "property": "C39",
   "status": "proved",
   "theorems": [
    "C39_stored_in_range"
   ],
   "note": ""
  },
  {
   "property": "C40",
   "status": "proved",
   "theorems": [
    "C40_lamports_conserved",
    "C40_tokens_conserved"
   ],
   "note": ""
  },
  {
   "property": "C41",
   "status": "proved",
   "theorems": [
    "C41_monotone",
    "C41_split",
    "C41_split_any"
   ],
   "note": ""
  },
  {
   "property": "C42",
   "status": "proved",
   "theorems": [
    "C42_withdraw",
    "C42_extend",
    "C42_change"
   ],
   "note": ""
  },
  {
   "property": "C43",
   "status": "proved",
   "theorems": [
    "C43_distribution_succeeds",
    "C43_ledger_distribution_succeeds"
   ],
   "note": ""
  },
  {
   "property": "C44",
   "status": "proved",
   "theorems": [
    "C44_deposit_succeeds",
    "C44_ledger_deposit_succeeds"
   ],
   "note": ""
  },
  {
   "property": "C45",
   "status": "proved",
   "theorems": [
    "C45_cross_pool_overclaim"
   ],
   "note": ""
  },
  {
   "property": "C46",
   "status": "proved",
   "theorems": [
    "C46_mining_blocked",
    "C46_pool_blocked",
    "C46_lamport"
   ],
   "note": ""
  },
  {
   "property": "C47",
   "status": "proved",
   "theorems": [
    "C47_closed_for_good"
   ],
   "note": ""
  },
  {
   "property": "C48",
   "status": "proved",
   "theorems": [
    "C48_exactly_when_allowed",
    "C48_only_when_allowed",
    "C48_built"
   ],
   "note": ""
  },
  {
   "property": "C49",
   "status": "proved",
   "theorems": [
    "C49_nothing_lost",
    "C49_claimable",
    "C49_stale_delegate_refuted",
    "C49_midnight_refuted",
    "C49_full_history_refuted",
    "C49_ledger_nothing_lost",
    "C49_ledger_claimable"
   ],
   "note": ""
  },
  {
   "property": "C50",
   "status": "proved",
   "theorems": [
    "C50_errors_have_reasons",
    "C50_codes",
    "C50_certain_errors"
   ],
   "note": ""
  },
  {
   "property": "C51",
   "status": "proved",
   "theorems": [
    "C51_crate_request",
    "C51_crate_roles",
    "C51_crate_flags",
    "C51_crate_complete",
    "C51_rust_client",
    "C51_rust_client_incomplete",
    "C51_js_client",
    "C51_js_client_incomplete",
    "C51_documented_suffices"
   ],
   "note": ""
  },
  {
   "property": "C52",
   "status": "proved",
   "theorems": [
    "C52_mining_read",
    "C52_pool_read",
    "C52_read_total",
    "C52_mining_search",
    "C52_pool_search",
    "C52_pool_taken_for_mining",
    "C52_search_finds_minings_refuted",
    "C52_sizes_read",
    "C52_sizes",
    "C52_error_known",
    "C52_error_name",
    "C52_error_tables_agree",
    "C52_error_message",
    "C52_message_tells_code_refuted"
   ],
   "note": ""
  },
  {
   "property": "C53",
   "status": "proved",
   "theorems": [
    "C53_dates_are_days"
   ],
   "note": ""
  },
  {
   "property": "C54",
   "status": "proved",
   "theorems": [
    "C54_leave",
    "C54_everything_unlocked"
   ],
   "note": ""
  },
  {
   "property": "C55",
   "status": "proved",
   "theorems": [
    "C55_order",
    "C55_claims",
    "C55_shared_delegate_refuted",
    "C55_full_pool_refuted"
   ],
   "note": ""
  },
  {
   "property": "C56",
   "status": "proved",
   "theorems": [
    "C56_never_more",
    "C56_hardly_less",
    "C56_no_favours",
    "C56_stale_delegate_refuted",
    "C56_early_extend_refuted",
    "C56_slots_refuted",
    "C56_midnight_refuted",
    "C56_locked_refuted",
    "C56_abandoned_delegate_refuted",
    "C56_midnight_exit_refuted",
    "C56_full_history_refuted",
    "C56_ledger_paid_at_most",
    "C56_ledger_never_more",
    "C56_ledger_hardly_less",
    "C56_ledger_all_paid",
    "C56_ledger_no_favours",
    "C56_ledger_stale_delegate_refuted"
   ],
   "note": ""
  },
  {
   "property": "C57",
   "status": "proved",
   "theorems": [
    "C57_tokens",
    "C57_lamports",
    "C57_rewards",
    "C57_minings",
    "C57_minings_refuted",
    "C57_stake",
    "C57_index",
    "C57_fill",
    "C57_pool"
   ],
   "note": ""
  },
  {
   "property": "C58",
   "status": "proved",
   "theorems": [
    "C58_same_ledgers",
    "C58_chain_is_history",
    "C58_history_is_chain",
    "C58_all_or_nothing",
    "C58_junk",
    "C58_rewards",
    "C58_pool",
    "C58_calls_only"
   ],
   "note": ""
  },
  {
   "property": "C59",
   "status": "proved",
   "theorems": [
    "C59_only_the_caller",
    "C59_bonus_recorded",
    "C59_undisciplined_refuted"
   ],
   "note": "for pools with an orderly, disciplined history (LedgerView.v); a distribution needs room in the index history; C59_undisciplined_refuted shows the discipline is needed"
  },
  {
   "property": "C60",
   "status": "proved",
   "theorems": [
    "C60_never_falls",
    "C60_unchanged",
    "C60_waiting",
    "C60_claim",
    "C60_defined",
    "C60_history",
    "C60_leaving_refuted",
    "C60_penalty_refuted"
   ],
   "note": "C60_never_falls, C60_unchanged and C60_claim hold on every reachable ledger where the refresh is possible; C60_defined and C60_history for orderly disciplined pools; the two refuted theorems show that leaving delegators and penalties really lower the amount"
  },
  {
   "property": "C61",
   "status": "proved",
   "theorems": [
    "C61_join",
    "C61_split",
    "C61_stale_refuted",
    "C61_self_fill_refuted",
    "C61_total_refuted"
   ],
   "note": "C61_join and C61_split hold on every reachable ledger under the stated conditions; C61_stale_refuted, C61_self_fill_refuted and C61_total_refuted show that the conditions on delegates, on the source of a fill and on the amount of a change cannot be dropped"
  },
  {
   "property": "C62",
   "status": "proved",
   "theorems": [
    "C62_bytes_read",
    "C62_bytes_written",
    "C62_otherwise_same",
    "C62_plain_histories",
    "C62_histories_kept",
    "C62_needs",
    "C62_stake_protects",
    "C62_effect",
    "C62_authorities",
    "C62_claims_are_real",
    "C62_nothing_open",
    "C62_other_accounts",
    "C62_authority_signed",
    "C62_only_named",
    "C62_conserves",
    "C62_lengths",
    "C62_stakers_safe_refuted",
    "C62_mint_fixed_refuted",
    "C62_never_closed_refuted"
   ],
   "note": "the tree found in a pool's bytes when the root is 1 to 50, and program accounts that are neither pool nor mining, are left open: the theorems hold for every content; C62_nothing_open shows that nothing is open in the case the witnesses use"
  },
  {
   "property": "C63",
   "status": "proved",
   "theorems": [
    "C63_deposit_withdraw",
    "C63_withdraw_deposit",
    "C63_change_back",
    "C63_up_to_date",
    "C63_gain",
    "C63_flash_stake_refuted"
   ],
   "note": "expiries due and entries of amount 0 are the only differences in schedules; the refutation is a concrete reached ledger"
  },
  {
   "property": "C64",
   "status": "proved",
   "theorems": [
    "C64_call",
    "C64_history",
    "C64_accounts",
    "C64_part_day_refuted"
   ],
   "note": "for amounts of time that are not whole days the statement is false, with a concrete reached ledger as witness"
  },
  {
   "property": "C65",
   "status": "proved",
   "theorems": [
    "C65_call",
    "C65_history",
    "C65_accounts",
    "C65_environment"
   ],
   "note": "C65_environment shows that every exchange of keys keeping the system program has an environment as required"
  },
  {
   "property": "C66",
   "status": "proved",
   "theorems": [
    "C66_set",
    "C66_empty",
    "C66_contained",
    "C66_history",
    "C66_same_call",
    "C66_locality",
    "C66_pool_hit",
    "C66_well_formed"
   ],
   "note": "the set of marked accounts contains only accounts owned by the program before or after the change; token accounts and wallets changed by such calls count as changed from outside, as they do in every history"
  },
  {
   "property": "C67",
   "status": "proved",
   "theorems": [
    "C67_counted_again",
    "C67_at_most",
    "C67_others",
    "C67_part",
    "C67_neutral_refuted"
   ],
   "note": "that a delegation to a second mining of one's own is neutral is refuted by a concrete orderly history"
  },
  {
   "property": "C68",
   "status": "proved",
   "theorems": [
    "C68_exactly",
    "C68_exactly_writable",
    "C68_effect",
    "C68_one_effect",
    "C68_histories"
   ],
   "note": ""
  },
  {
   "property": "C69",
   "status": "proved",
   "theorems": [
    "C69_call",
    "C69_call_back",
    "C69_unmoved",
    "C69_opened",
    "C69_ordinary",
    "C69_consent",
    "C69_effect",
    "C69_histories",
    "C69_reached",
    "C69_orderly",
    "C69_claims_pay"
   ],
   "note": ""
  },
  {
   "property": "C70",
   "status": "proved",
   "theorems": [
    "C70_flash_stake"
   ],
   "note": ""
  },
  {
   "property": "C71",
   "status": "proved",
   "theorems": [
    "C71_rent_kept",
    "C71_refund",
    "C71_never_drained"
   ],
   "note": ""
  },
  {
   "property": "C72",
   "status": "proved",
   "theorems": [
    "C72_loaders",
    "C72_assertions",
    "C72_rent_exempt"
   ],
   "note": ""
  },
  {
   "property": "C73",
   "status": "proved",
   "theorems": [
    "C73_delegate_free"
   ],
   "note": "Compares two calls that both succeed; whether they do can depend on the delegate."
  },
  {
   "property": "C74",
   "status": "proved",
   "theorems": [
    "C74_extend_raises",
    "C74_lighter_refuted",
    "C74_future_refuted"
   ],
   "note": "The two refuted theorems show that each of the two conditions on unexpired stakes is needed."
  },
  {
   "property": "C75",
   "status": "proved",
   "theorems": [
    "C75_extend_is_restake"
   ],
   "note": "The pool schedules are compared where the new date fits in the pool schedule (365 dates)."
  },
  {
   "property": "C76",
   "status": "proved",
   "theorems": [
    "C76_books_suffice",
    "C76_books_right",
    "C76_solvent",
    "C76_stake_withdraws"
   ],
   "note": "The other conditions of orderly histories (LedgerView.v: nobody signs for the zero key, derived addresses, vault not emptied by its owner) remain hypotheses; they concern other accounts, not the state of the stakes."
  },
  {
   "property": "C77",
   "status": "proved",
   "theorems": [
    "C77_step",
    "C77_run",
    "C77_start",
    "C77_checked",
    "C77_distribution"
   ],
   "note": "The account of the pool holds lamports (0 < lamports_of L P), so that the runtime does not remove it; the rent of a mining is positive."
  },
  {
   "property": "C78",
   "status": "proved",
   "theorems": [
    "C78_refused",
    "C78_stays",
    "C78_stuck_refused",
    "C78_forever",
    "C78_expiry_passes",
    "C78_strike",
    "C78_struck",
    "C78_anybody"
   ],
   "note": "Over histories: derived addresses do not collide (env_inj) and the accounts of pool and mining hold lamports, so that the runtime does not remove them."
  },
  {
   "property": "C79",
   "status": "proved",
   "theorems": [
    "C79_call",
    "C79_history",
    "C79_claims",
    "C79_overtime"
   ],
   "note": "No discipline and no condition on other pools is assumed; closing and re-opening a mining starts a new count."
  },
  {
   "property": "C80",
   "status": "proved",
   "theorems": [
    "C80_raid",
    "C80_target",
    "C80_vault",
    "C80_again"
   ],
   "note": "A constructive theorem: the four calls are run from an arbitrary reached ledger that meets the listed conditions; the example meets them with the whole vault as the target."
  },
  {
   "property": "C81",
   "status": "proved",
   "theorems": [
    "C81_debt",
    "C81_claims"
   ],
   "note": "An equation with an explicit remainder q between 0 and the sum of the roundings; C20 and C49 are the cases in which the sum of additions has a known sign. Orderly histories (LedgerView.v) with no discipline on the events."
  },
  {
   "property": "C82",
   "status": "proved",
   "theorems": [
    "C82_income",
    "C82_claim",
    "C82_life"
   ],
   "note": "An equation with an explicit remainder q between 0 and the sum of the roundings, for every history during which the mining is open in its initialised pool. Needs derived addresses not to collide (env_inj, see DESIGN.md)."
  },
  {
   "property": "C83",
   "status": "proved",
   "theorems": [
    "C83_between",
    "C83_range",
    "C83_loss",
    "C83_gain",
    "C83_anybody"
   ],
   "note": "The program does not check that the old delegate belongs to the pool; C83 measures the harm. C83_anybody needs derived addresses not to collide (env_inj, see DESIGN.md), and that the mining can be refreshed at all (its stake fits, and no more expires than it has). The upper end of C83_range is reached by the theft of C79 and C82_example_strike."
  },
  {
   "property": "C84",
   "status": "proved",
   "theorems": [
    "C84_alike",
    "C84_same"
   ],
   "note": "Both histories are of calls that succeed; whether a call succeeds also depends on the vault, the signers and the pool's totals. Histories during which the mining is open throughout."
  },
  {
   "property": "C85",
   "status": "proved",
   "theorems": [
    "C85_pool",
    "C85_mining"
   ],
   "note": "Both histories are of calls that succeed. That no other pool's call works on the mining is needed: C83 shows what such a call does."
  },
  {
   "property": "C86",
   "status": "proved",
   "theorems": [
    "C86_mining",
    "C86_pool",
    "C86_dilution",
    "C86_same_start",
    "C86_alone_refuted"
   ],
   "note": "The two histories have the same calls on the mining at the same times; amounts may differ. That a larger stake alone never earns less is false, C86_alone_refuted: the index is rounded down."
  },
  {
   "property": "C87",
   "status": "proved",
   "theorems": [
    "C87_longer",
    "C87_exact_refuted"
   ],
   "note": "The two index histories are the same, since a longer lockup in the same pool would dilute it. Exactly, without an allowance for rounding, the claim is false: C87_exact_refuted."
  },
  {
   "property": "C88",
   "status": "proved",
   "theorems": [
    "C88_orderly",
    "C88_own_stake",
    "C88_same_start",
    "C88_midnight_refuted",
    "C88_delegate_refuted"
   ],
   "note": "In any history, that the mining's stake is at most its pool's and at most s at distributions is a hypothesis about the states before each distribution (whenever); C88_example_met shows it for a concrete pair of histories. In histories that respect the conditions of C19 it follows (C88_orderly). C88_midnight_refuted: without the condition on the first second of the day the claim is false. C88_delegate_refuted: nor may the amounts differ where a delegate gets stake."
  },
  {
   "property": "C89",
   "status": "proved",
   "theorems": [
    "C89_orderly",
    "C89_own_longer",
    "C89_same_start",
    "C89_room_refuted"
   ],
   "note": "In any history, the bounds on the stake at distributions are hypotheses about the states before each distribution (whenever), as in C88; in histories that respect the conditions of C19 they follow (C89_orderly, met by C89_orderly_met). C89_room_refuted: with a full schedule of the second mining the claim is false, all else being as in the theorem."
  },
  {
   "property": "C90",
   "status": "proved",
   "theorems": [
    "C90_claims",
    "C90_settled",
    "C90_nothing",
    "C90_penalty_refuted",
    "C90_delegate_refuted"
   ],
   "note": "Proved against a staker who never claims (Often.v): bringing a mining up to date twice instead of once leaves the same stake, schedule and index and loses at most one token. C90_nothing shows the rounding is real (0 against 17 tokens); C90_penalty_refuted and C90_delegate_refuted show that the two conditions are needed."
  },
  {
   "property": "C91",
   "status": "proved",
   "theorems": [
    "C91_part",
    "C91_days",
    "C91_expiry_refuted",
    "C91_others_refuted"
   ],
   "note": "By induction over the log (Days.v): each distribution moves its part of the budget into the index up to a rounding below the stake of the pool, and each claim loses under one token. C91_expiry_refuted and C91_others_refuted show that lockups must last and that the others' stakes must stand still."
  },
  {
   "property": "C92",
   "status": "proved",
   "theorems": [
    "C92_split",
    "C92_nothing",
    "C92_claims_refuted"
   ],
   "note": "By induction over three logs at once (Parts.v): two pool steps with parts of the amounts make the same pool as one step, and what is credited for a sum of stakes is the sum of what is credited for each up to one token per segment. C92_nothing shows that the rounding is real, C92_claims_refuted that the claims must be at the same times."
  },
  {
   "property": "C93",
   "status": "proved",
   "theorems": [
    "C93_units",
    "C93_start",
    "C93_exact_refuted"
   ],
   "note": "By induction over two logs at once (Scale.v): each rise of the first index is c times that of the second and a rest below c, so every segment that is credited in the second history is at most that of the first. C93_exact_refuted shows that the rests are real; C93_start that pools without stake are a beginning."
  },
  {
   "property": "C94",
   "status": "proved",
   "theorems": [
    "C94_rewards",
    "C94_exact_refuted",
    "C94_uncredited_refuted"
   ],
   "note": "By induction over two logs at once (Rich.v): the rests of the daily parts are followed as a gap between the second budget and c times the first, which never changes sign and rises by less than c; the rises of the indices are compared from above and from below, and counted by the place of the mining in the history. C94_exact_refuted shows that the rests are real. C94_uncredited_refuted shows that the mining must have been credited all at the start."
  },
  {
   "property": "C95",
   "status": "proved",
   "theorems": [
    "C95_leave",
    "C95_all_leave",
    "C95_delegate_refuted"
   ],
   "note": "By induction over the list of those who leave (WindUp.v), from the departure of one (C54), with everything else its three calls leave unchanged. The weighted stake of a pool without stakers is zero by the exact sum (C18). C95_delegate_refuted: a delegate cannot leave first."
  },
  {
   "property": "C96",
   "status": "proved",
   "theorems": [
    "C96_together",
    "C96_exact_refuted"
   ],
   "note": "By induction over three logs at once (Together.v), with the comparison of C94 between the sum of the first two histories of distributions and the third. C96_exact_refuted shows that the rounding is real."
  },
  {
   "property": "C97",
   "status": "proved",
   "theorems": [
    "C97_part",
    "C97_all_part",
    "C97_all_due_refuted"
   ],
   "note": "By induction over the list of those who leave (Parting.v), with the three calls of one of them from C95. C97_all_due_refuted: a delegate gets less than was due before the delegators left, as delegation is taken back retroactively (C42)."
  },
  {
   "property": "C98",
   "status": "proved",
   "theorems": [
    "C98_own_course",
    "C98_quicker",
    "C98_same_day_refuted",
    "C98_room_refuted"
   ],
   "note": "C98_own_course and C98_quicker by two walks through the logs, move by move (Pace.v). C98_same_day_refuted: the first distribution of a day counts, and at midnight one more day is left than at noon, so that an earlier further distribution leaves half of the budget where the later one alone hands out all of it. C98_room_refuted: with a full history (1095 days) two distributions of one day both hand out a part, so less is left there than in an equal pool with room."
  }
 ]
}
