{
 "claims": [
  {
   "property": "C01",
   "status": "proved",
   "theorems": [
    "C01_u64_roundtrip",
    "C01_u32_roundtrip",
    "C01_u16_roundtrip",
    "C01_narrow_refuses"
   ],
   "note": ""
  },
  {
   "property": "C02",
   "status": "proved",
   "theorems": [
    "C02_prefix_free",
    "C02_concat_unique",
    "C02_length",
    "C02_minimal"
   ],
   "note": ""
  },
  {
   "property": "C03",
   "status": "proved",
   "theorems": [
    "C03_success_bounded",
    "C03_failure",
    "C03_canonical_refuted"
   ],
   "note": "Totality and bounds proved; the stronger claim that only canonical codes are accepted is refuted (C03_canonical_refuted)."
  },
  {
   "property": "C04",
   "status": "proved",
   "theorems": [
    "C04_i64_codec",
    "C04_i32_codec",
    "C04_i64_wire",
    "C04_i16_wire",
    "C04_i32_wire",
    "C04_i32_wire_refuted"
   ],
   "note": "Codec and 16/64-bit wire functions proved; the 32-bit wire claim is refuted for values outside 31 bits (C04_i32_wire_refuted)."
  },
  {
   "property": "C05",
   "status": "proved",
   "theorems": [
    "C05_add_u64",
    "C05_sub_u64",
    "C05_add_i64",
    "C05_sub_i64",
    "C05_add_i64_min_refuted"
   ],
   "note": "Exact for all operands except checked_add_i64 with INT64_MIN, undefined in C (C05_add_i64_min_refuted)."
  },
  {
   "property": "C06",
   "status": "proved",
   "theorems": [
    "C06_sequences",
    "C06_call",
    "C06_read_int",
    "C06_read_bytes",
    "C06_write",
    "C06_write_read",
    "C06_shift",
    "C06_any_use_refuted"
   ],
   "note": "Every call sequence that never seeks the write position below the read position; the unrestricted claim is refuted (C06_any_use_refuted)."
  },
  {
   "property": "C07",
   "status": "proved",
   "theorems": [
    "C07_coin",
    "C07_account_ge3",
    "C07_coin_ge2_hard",
    "C07_account_e3",
    "C07_address_e5",
    "C07_address_ge5",
    "C07_ge2_refuted"
   ],
   "note": "Every mode characterised exactly; the two-component path of the documentation is refused by all modes (C07_ge2_refuted)."
  },
  {
   "property": "C08",
   "status": "proved",
   "theorems": [
    "C08_text",
    "C08_unique",
    "C08_address_paths",
    "C08_text_injective",
    "C08_unique_refuted"
   ],
   "note": "Identification without restriction is false and refuted (C08_unique_refuted)."
  },
  {
   "property": "C09",
   "status": "proved",
   "theorems": [
    "C09_base58",
    "C09_decodable",
    "C09_injective",
    "C09_fits"
   ],
   "note": ""
  },
  {
   "property": "C10",
   "status": "proved",
   "theorems": [
    "C10_recognised",
    "C10_p2pk",
    "C10_p2sh",
    "C10_own_tree"
   ],
   "note": ""
  },
  {
   "property": "C11",
   "status": "proved",
   "theorems": [
    "C11_box_id"
   ],
   "note": ""
  },
  {
   "property": "C12",
   "status": "proved",
   "theorems": [
    "C12_tree",
    "C12_tokens",
    "C12_registers",
    "C12_attested"
   ],
   "note": ""
  },
  {
   "property": "C13",
   "status": "proved",
   "theorems": [
    "C13_box_sizes",
    "C13_small_trees",
    "C13_transaction"
   ],
   "note": "Boxes of attestation (C13_*) and transactions (C13_transaction)."
  },
  {
   "property": "C14",
   "status": "proved",
   "theorems": [
    "C14_message"
   ],
   "note": ""
  },
  {
   "property": "C15",
   "status": "proved",
   "theorems": [
    "C15_outputs",
    "C15_refuted"
   ],
   "note": "That every signed byte belongs to a completed output is false and refuted (C15_refuted)."
  },
  {
   "property": "C16",
   "status": "proved",
   "theorems": [
    "C16_transaction",
    "C16_transaction_init",
    "C16_box",
    "C16_box_init",
    "C16_input",
    "C16_input_init",
    "C16_device",
    "C16_over"
   ],
   "note": "Exception of the box serializer stated (short_index)."
  },
  {
   "property": "C17",
   "status": "proved",
   "theorems": [
    "C17_amount"
   ],
   "note": ""
  },
  {
   "property": "C18",
   "status": "proved",
   "theorems": [
    "C18_tokens"
   ],
   "note": "A deficit of exactly 2^63 is displayed through undefined behaviour (C53)."
  },
  {
   "property": "C19",
   "status": "proved",
   "theorems": [
    "C19_kept",
    "C19_refused",
    "C19_no_signature"
   ],
   "note": ""
  },
  {
   "property": "C20",
   "status": "proved",
   "theorems": [
    "C20_kept",
    "C20_refused"
   ],
   "note": ""
  },
  {
   "property": "C21",
   "status": "proved",
   "theorems": [
    "C21_outputs"
   ],
   "note": ""
  },
  {
   "property": "C22",
   "status": "proved",
   "theorems": [
    "C22_rule",
    "C22_account_refuted",
    "C22_index_refuted"
   ],
   "note": "The intended rule is false and refuted (C22_account_refuted, C22_index_refuted)."
  },
  {
   "property": "C23",
   "status": "proved",
   "theorems": [
    "C23_pages",
    "C23_signed"
   ],
   "note": ""
  },
  {
   "property": "C24",
   "status": "proved",
   "theorems": [
    "C24_refuted",
    "C24_pages"
   ],
   "note": "Disclosure is false and refuted (C24_refuted)."
  },
  {
   "property": "C25",
   "status": "proved",
   "theorems": [
    "C25_attested",
    "C25_open"
   ],
   "note": ""
  },
  {
   "property": "C26",
   "status": "proved",
   "theorems": [
    "C26_frame",
    "C26_inputs"
   ],
   "note": "Tokens of an input: if ids of attested boxes determine their tokens; see C56 for why this is needed."
  },
  {
   "property": "C27",
   "status": "proved",
   "theorems": [
    "C27_frame",
    "C27_count"
   ],
   "note": ""
  },
  {
   "property": "C28",
   "status": "proved",
   "theorems": [
    "C28_tokens_once"
   ],
   "note": ""
  },
  {
   "property": "C29",
   "status": "proved",
   "theorems": [
    "C29_order",
    "C29_refused",
    "C29_complete"
   ],
   "note": ""
  },
  {
   "property": "C30",
   "status": "proved",
   "theorems": [
    "C30_class",
    "C30_instruction",
    "C30_parameters",
    "C30_one_answer",
    "C30_handled"
   ],
   "note": ""
  },
  {
   "property": "C31",
   "status": "proved",
   "theorems": [
    "C31_version",
    "C31_name"
   ],
   "note": ""
  },
  {
   "property": "C32",
   "status": "proved",
   "theorems": [
    "C32_busy",
    "C32_host",
    "C32_only_then"
   ],
   "note": ""
  },
  {
   "property": "C33",
   "status": "proved",
   "theorems": [
    "C33_consent"
   ],
   "note": "A signature is an answer of 56 bytes (C43: no other answer has this size)."
  },
  {
   "property": "C34",
   "status": "proved",
   "theorems": [
    "C34_once",
    "C34_gone"
   ],
   "note": ""
  },
  {
   "property": "C35",
   "status": "proved",
   "theorems": [
    "C35_match",
    "C35_mismatch"
   ],
   "note": ""
  },
  {
   "property": "C36",
   "status": "proved",
   "theorems": [
    "C36_nonzero",
    "C36_fresh_refuted"
   ],
   "note": "Freshness is false and refuted (C36_fresh_refuted)."
  },
  {
   "property": "C37",
   "status": "proved",
   "theorems": [
    "C37_command",
    "C37_user"
   ],
   "note": "Includes the two exceptions named in the property."
  },
  {
   "property": "C38",
   "status": "proved",
   "theorems": [
    "C38_over"
   ],
   "note": ""
  },
  {
   "property": "C39",
   "status": "proved",
   "theorems": [
    "C39_key",
    "C39_address"
   ],
   "note": "Responses are told apart by their size (C43)."
  },
  {
   "property": "C40",
   "status": "proved",
   "theorems": [
    "C40_key",
    "C40_key_screen",
    "C40_address",
    "C40_address_screen"
   ],
   "note": "The key screen always shows the whole path; the address screen may cut a path of 60 characters or more."
  },
  {
   "property": "C41",
   "status": "proved",
   "theorems": [
    "C41_token",
    "C41_at_once",
    "C41_sign",
    "C41_attest"
   ],
   "note": "remembered is read off the history alone (SpecScreen)."
  },
  {
   "property": "C42",
   "status": "proved",
   "theorems": [
    "C42_reject",
    "C42_no_screen"
   ],
   "note": ""
  },
  {
   "property": "C43",
   "status": "proved",
   "theorems": [
    "C43_sizes"
   ],
   "note": ""
  },
  {
   "property": "C44",
   "status": "proved",
   "theorems": [
    "C44_verifies",
    "C44_equation"
   ],
   "note": "For every group in which the device's multiplication is that of a generator; the curve itself is not modelled."
  },
  {
   "property": "C45",
   "status": "proved",
   "theorems": [
    "C45_nonce",
    "C45_once",
    "C45_wiped"
   ],
   "note": ""
  },
  {
   "property": "C46",
   "status": "proved",
   "theorems": [
    "C46_check",
    "C46_strict_refuted",
    "C46_signature"
   ],
   "note": "Strictness of the check alone is refuted (C46_strict_refuted)."
  },
  {
   "property": "C47",
   "status": "proved",
   "theorems": [
    "C47_flow",
    "C47_no_overflow",
    "C47_cells",
    "C47_menus"
   ],
   "note": ""
  },
  {
   "property": "C48",
   "status": "proved",
   "theorems": [
    "C48_page",
    "C48_walk",
    "C48_range"
   ],
   "note": ""
  },
  {
   "property": "C49",
   "status": "proved",
   "theorems": [
    "C49_shown",
    "C49_what_is_identified",
    "C49_bytes",
    "C49_identify_refuted"
   ],
   "note": "The claim as first stated is false (C49_identify_refuted); exactly what is identified is proved."
  },
  {
   "property": "C50",
   "status": "proved",
   "theorems": [
    "C50_erg",
    "C50_erg_injective",
    "C50_token",
    "C50_token_injective"
   ],
   "note": ""
  },
  {
   "property": "C51",
   "status": "proved",
   "theorems": [
    "C51_sign",
    "C51_address",
    "C51_first_byte"
   ],
   "note": "Stated as: with everything else the same, exactly these networks are accepted; holds in every state."
  },
  {
   "property": "C52",
   "status": "proved",
   "theorems": [
    "C52_no_undefined",
    "C52_commands"
   ],
   "note": "The one undefined operation reachable is the negation of C53, characterised exactly."
  },
  {
   "property": "C53",
   "status": "proved",
   "theorems": [
    "C53_refuted",
    "C53_otherwise"
   ],
   "note": "Absence of undefined behaviour is refuted for the balance -2^63 (C53_refuted)."
  },
  {
   "property": "C54",
   "status": "proved",
   "theorems": [
    "C54_lengths",
    "C54_ignored"
   ],
   "note": "Stream commands (tokens, trees, registers, extensions, data inputs) have no trailing data: all their bytes belong to the stream."
  },
  {
   "property": "C55",
   "status": "proved",
   "theorems": [
    "C55_page",
    "C55_p2pk",
    "C55_refuted"
   ],
   "note": "That the page determines the script is refuted (C55_refuted)."
  },
  {
   "property": "C56",
   "status": "proved",
   "theorems": [
    "C56_value",
    "C56_tokens",
    "C56_refuted"
   ],
   "note": "That the id determines the tokens is refuted (C56_refuted)."
  },
  {
   "property": "C57",
   "status": "proved",
   "theorems": [
    "C57_accepts"
   ],
   "note": ""
  },
  {
   "property": "C58",
   "status": "proved",
   "theorems": [
    "C58_accepts"
   ],
   "note": ""
  },
  {
   "property": "C59",
   "status": "proved",
   "theorems": [
    "C59_key",
    "C59_address",
    "C59_attest",
    "C59_sign"
   ],
   "note": ""
  },
  {
   "property": "C60",
   "status": "proved",
   "theorems": [
    "C60_attest"
   ],
   "note": "Liveness: the packets are those of SpecHost; big_box_fits and C60_ex show boxes at the limits."
  },
  {
   "property": "C61",
   "status": "proved",
   "theorems": [
    "C61_sign"
   ],
   "note": "Liveness: the only failure left is a challenge of 24 zero bytes, stated in the theorem."
  },
  {
   "property": "C62",
   "status": "proved",
   "theorems": [
    "C62_signature",
    "C62_bytes",
    "C62_standard",
    "C62_box",
    "C62_refuted"
   ],
   "note": "Without readability of the described scripts the claim is false and refuted (C62_refuted)."
  },
  {
   "property": "C63",
   "status": "proved",
   "theorems": [
    "C63_seed",
    "C63_shape",
    "C63_attest"
   ],
   "note": "Two-device simulation; same_paths is the only relation assumed between the seeds."
  },
  {
   "property": "C64",
   "status": "proved",
   "theorems": [
    "C64_cost",
    "C64_tokens"
   ],
   "note": "End to end: combines C14, C17, C18, C21, C23, C26, C56 and C62 with the ledger's view of the boxes. The refutations of C15, C56 and C62 show why completeness and readability are needed."
  },
  {
   "property": "C65",
   "status": "proved",
   "theorems": [
    "C65_signature",
    "C65_public_key",
    "C65_agreement",
    "C65_erased_start",
    "C65_erased_finish",
    "C65_product_refuted",
    "C65_raw_key_refuted",
    "C65_code_refuted"
   ],
   "note": "Over Secrets.v, which adds failures and memory contents to the cryptographic functions; C65_agreement ties it to the main model. Three stronger claims are false and refuted (C65_product_refuted, C65_raw_key_refuted, C65_code_refuted)."
  },
  {
   "property": "C66",
   "status": "proved",
   "theorems": [
    "C66_history",
    "C66_put",
    "C66_question",
    "C66_decide",
    "C66_acts",
    "C66_signature",
    "C66_read",
    "C66_read_signed",
    "C66_unread_refuted",
    "C66_reach",
    "C66_frozen",
    "C66_answerable_refuted",
    "C66_menu",
    "C66_menu_refuted",
    "C66_quit",
    "C66_off"
   ],
   "note": "Over Buttons.v, which adds the SDK's flow engine to the model. That the pages must have been displayed before signing, and that every question stays answerable, and that the idle display shows only the menus, are false and refuted (C66_unread_refuted, C66_answerable_refuted, C66_menu_refuted)."
  },
  {
   "property": "C67",
   "status": "proved",
   "theorems": [
    "C67_restart",
    "C67_life",
    "C67_session",
    "C67_frame",
    "C67_signature",
    "C67_key",
    "C67_address",
    "C67_past"
   ],
   "note": "The memory found at a restart is an arbitrary state of the model; session keys of different runs may be any keys, also equal ones."
  },
  {
   "property": "C68",
   "status": "proved",
   "theorems": [
    "C68_reported",
    "C68_buffers",
    "C68_transfer",
    "C68_signature",
    "C68_hmac_refuted",
    "C68_hmac_frame_refuted"
   ],
   "note": "Over Fault.v, LowTx.v, LowOp.v and LowApp.v, which write the serializers, addresses, answers and handlers again with fallible calls and rw_buffer_t over arrays of arbitrary contents. Assumes that HMAC-SHA256 does not fail; without that the claim is refuted (C68_hmac_refuted, C68_hmac_frame_refuted)."
  },
  {
   "property": "C69",
   "status": "proved",
   "theorems": [
    "C69_meaning",
    "C69_denied",
    "C69_bad_tag"
   ],
   "note": "From the code to its cause. That a request with a given fault is refused at all is C57-C59; with several faults at once the code names one of them."
  },
  {
   "property": "C70",
   "status": "proved",
   "theorems": [
    "C70_received",
    "C70_behind",
    "C70_histories",
    "C70_all_histories",
    "C70_in_bounds"
   ],
   "note": "Over ReadBuf.v, ReadTx.v and ReadApp.v, which write the parsers, serializers, handlers and the dispatcher again over buffer_t. The packet parser is the SDK's, modelled from its documentation; the primitives of buffer.c and bip32.c are those in unit-tests/utils."
  },
  {
   "property": "C71",
   "status": "proved",
   "theorems": [
    "C71_stream",
    "C71_fed",
    "C71_once",
    "C71_digest",
    "C71_env"
   ],
   "note": "Over Blake2b.v: the wrappers of src/helpers/blake2b.c on the BLAKE2b of unit-tests/utils, the only implementation in the repository (on a device the wrappers call the SDK's). The specification is RFC 7693 without key. UnitTests.v runs the repository's test vectors, among them a whole transaction id, through the model with this hash."
  },
  {
   "property": "C72",
   "status": "proved",
   "theorems": [
    "C72_command",
    "C72_user",
    "C72_decision",
    "C72_count",
    "C72_packet",
    "C72_wire",
    "C72_wire_all",
    "C72_spoken"
   ],
   "note": "Over App.v for the counting and Wire.v for the packets (the I/O buffer as part of the state). The send and receive functions are the SDK's, modelled from their interface; its transport states are not modelled."
  },
  {
   "property": "C73",
   "status": "proved",
   "theorems": [
    "C73_key",
    "C73_no_frame",
    "C73_ids",
    "C73_nonce"
   ],
   "note": "Over App.v. C73_key keeps the tags of the frames in the history fixed, so it says that the key acts through those tags only; that the tags reveal nothing about the key is a matter of HMAC and is not claimed. C73_nonce supposes that the other random numbers draw the same session ids and that both or neither give a usable nonce within 100 tries."
  },
  {
   "property": "C74",
   "status": "proved",
   "theorems": [
    "C74_run",
    "C74_all",
    "C74_signature",
    "C74_cost",
    "C74_key",
    "C74_address"
   ],
   "note": "Over Whole.v, which joins Wire.v, Buttons.v and Restart.v. A run ends where the device hangs (C36) or its program is undefined (C53). Dismissal by Reject counts as having read, as in C66. C74_run and C74_all together: on every left-over memory exactly the runs of SpecButtons happen."
  },
  {
   "property": "C75",
   "status": "proved",
   "theorems": [
    "C75_safe",
    "C75_free",
    "C75_reaches"
   ],
   "note": "The wallet of SpecWallet.v is a reference client written from the documents; it holds the frames it received, not recomputed ones. C75_safe covers every moment of the talk; C75_free: a single button is never answered when the pages can be displayed (exceptions: change path text of 70 or more characters, C69; a balance of exactly -2^63, C53). C75_reaches starts at any moment, if a question is open under the same condition, and assumes random numbers with which a session can be opened (C62, C73). A user who refuses is left out: C12 and C66 say what happens then."
  },
  {
   "property": "C76",
   "status": "proved",
   "theorems": [
    "C76_out",
    "C76_ready",
    "C76_serves",
    "C76_dead"
   ],
   "note": "Existence of the presses, as in C66_reach, but for all questions; C66_reach needs pages without failures because it reaches every card. Dead buttons are the case of C66_answerable_refuted; C76_dead says that there is no other but leaving the application. C76_serves assumes, as C75_reaches, random numbers with which a session can be opened."
  },
  {
   "property": "C77",
   "status": "proved",
   "theorems": [
    "C77_key",
    "C77_address"
   ],
   "note": "Existence of the presses, as in C66_reach and C76. In order means accepted on a fresh device (C59 with an empty history), so it does not depend on what the device remembers. That no other answer carries a key or an address is C39, C40 and C74."
  },
  {
   "property": "C78",
   "status": "proved",
   "theorems": [
    "C78_signs",
    "C78_attests"
   ],
   "note": "On the level of events and screens, as C68 (buttons and packets: C76). Assumes as C68 that HMAC-SHA256 does not fail, and as C61 random numbers with which a session can be opened. The zero challenge is the exception of C61."
  },
  {
   "property": "C79",
   "status": "proved",
   "theorems": [
    "C79_display",
    "C79_signature",
    "C79_answers"
   ],
   "note": "Joins C66 (buttons and display) and C68 (failing calls). Assumes as C68 that HMAC-SHA256 does not fail. The run without failures shown to exist may contain more presses: where a call failed in a press, single presses to Reject and both buttons there stand for it."
  },
  {
   "property": "C80",
   "status": "proved",
   "theorems": [
    "C80_run",
    "C80_none",
    "C80_signature",
    "C80_serves",
    "C80_dead"
   ],
   "note": "Joins C74 and C76 with C79. Assumes as C68 that HMAC-SHA256 does not fail, and as C75 random numbers with which a session can be opened. C80_dead places the dead buttons in the run that stands for the real one. What a signature can cost follows from C74_cost for the run without failures named in C80_signature."
  },
  {
   "property": "C81",
   "status": "proved",
   "theorems": [
    "C81_key",
    "C81_address",
    "C81_key_granted",
    "C81_address_granted"
   ],
   "note": "Carries C74_key, C74_address and C77 over to runs with failing calls (C80). Assumes as C68 that HMAC-SHA256 does not fail. The token approved before is found in the run without failures that looks the same."
  },
  {
   "property": "C82",
   "status": "proved",
   "theorems": [
    "C82_transfer",
    "C82_run",
    "C82_signature",
    "C82_answers",
    "C82_message"
   ],
   "note": "Drops the assumption of C68 and C79 that HMAC-SHA256 does not fail. Left to assume is that it then leaves bytes in its 32-byte buffer, any bytes. Amounts displayed from frames with wrong tags can be wrong: C68_hmac_refuted."
  },
  {
   "property": "C83",
   "status": "proved",
   "theorems": [
    "C83_run",
    "C83_signature",
    "C83_key",
    "C83_address",
    "C83_serves",
    "C83_key_granted",
    "C83_address_granted"
   ],
   "note": "Carries C80 and C81 over to runs in which HMAC-SHA256 fails as well (C82); assumes of it as C82 only that it leaves bytes in its buffer. As C80 it assumes random numbers with which a session can be opened."
  },
  {
   "property": "C84",
   "status": "proved",
   "theorems": [
    "C84_cost",
    "C84_tokens",
    "C84_hand_cost",
    "C84_hand_tokens"
   ],
   "note": "Over the observations of the run with failures itself, not of a run without; also for the device operated by its buttons. The conditions are those of C64; HMAC-SHA256 is taken to work (with it failing the attested values are not to be trusted, see C68)."
  },
  {
   "property": "C85",
   "status": "proved",
   "theorems": [
    "C85_does",
    "C85_cost",
    "C85_tokens",
    "C85_approved"
   ],
   "note": "The conditions are those of C64, over what the device did in the run with failures itself; HMAC-SHA256 is taken to work. An approval in such a run is both buttons pressed on the card Approve (or on a text card of the question about the path), by C85_approved."
  }
 ]
}