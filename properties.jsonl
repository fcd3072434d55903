{"id": "C01", "title": "VLQ numbers survive a write/read round trip", "statement": "Writing any unsigned 64-bit number with the variable-length encoder and reading it back gives the same number and consumes exactly the bytes written, whatever bytes follow; the same holds for the 16- and 32-bit entry points.", "quantifier": "every u64 / u32 / u16 value and every trailing byte string", "why_tests_cant": "2^64 values times all suffixes; tests sample a handful", "anchors": ["src/common/gve.c:gve_put_u64", "src/common/gve.c:gve_get_u64", "src/common/gve.c:gve_get_u32", "src/common/gve.c:gve_get_u16"]}
{"id": "C02", "title": "VLQ encoding is injective, prefix-free, minimal and at most 10 bytes", "statement": "Two different u64 values never have encodings one of which is a prefix of the other, so a concatenation of encoded numbers can be cut back in only one way; every encoding has between 1 and 10 bytes and no shorter byte string decodes to the same number.", "quantifier": "every pair of u64 values and every continuation", "why_tests_cant": "quadratic in 2^64", "anchors": ["src/common/gve.c:gve_put_u64", "src/common/gve.c:gve_get_u64"]}
{"id": "C03", "title": "VLQ decoder is total and bounded", "statement": "On every byte string the decoder either succeeds with a value below 2^64 having consumed at most 10 bytes, or fails; it never reads past the end. Non-canonical encodings are accepted (the claim that only canonical encodings are accepted is false and is refuted).", "quantifier": "every byte string", "why_tests_cant": "unbounded input space", "anchors": ["src/common/gve.c:gve_get_u64"]}
{"id": "C04", "title": "ZigZag codec round trips", "statement": "Decoding the zigzag code of any signed 64-bit number gives the number back, and the same for every 32-bit number at the level of the codec; through the wire functions 16-bit and 64-bit numbers round trip, while the 32-bit wire functions do not (an int32 outside [-2^30, 2^30) is written sign-extended to 64 bits and refused on reading): that full claim is refuted.", "quantifier": "every int64 / int32 / int16", "why_tests_cant": "2^64 values", "anchors": ["src/common/zigzag.h", "src/common/gve.h:gve_put_i32", "src/common/gve.c:gve_get_i32"]}
{"id": "C05", "title": "Checked arithmetic is exact", "statement": "Each checked add/subtract succeeds exactly when the mathematical result fits the target type, and then returns that mathematical result; the single exception is the signed addition with the minimum integer on the left, which is undefined in C.", "quantifier": "every pair of operands", "why_tests_cant": "2^128 pairs", "anchors": ["src/common/safeint.h"]}
{"id": "C06", "title": "Read and read/write buffers never step outside their storage", "statement": "From any valid buffer every operation keeps 0 <= read position <= write position <= capacity, touches only bytes inside the backing array, and fails without any effect on the cursor when there is not enough data or space. Seeking the write position below the read position is the one way to break this (refuted for arbitrary use, never done by the app).", "quantifier": "every buffer state, every operation sequence and every argument", "why_tests_cant": "all sequences of operations", "anchors": ["src/common/rwbuffer.c", "src/common/rwbuffer.h", "src/common/buffer_ext.c", "unit-tests/utils/buffer.c"]}
{"id": "C07", "title": "BIP-32 path validation accepts exactly the documented shapes", "statement": "For each validation mode the accepted paths are exactly those of the documented shape: 44'/429' prefix; hardened tail; account'/change(0 or 1)/non-hardened tail, with exactly or at least the required number of components (a two-component path is refused by every mode, although one mode is documented as 'at least two').", "quantifier": "every path of any length and content, every mode", "why_tests_cant": "infinite family of paths", "anchors": ["src/common/bip32_ext.c:bip32_path_validate"]}
{"id": "C08", "title": "The path shown on screen identifies the path", "statement": "Formatting a path either fails without showing anything or yields a text that fits the buffer. A text of a path that fits is shown in full; otherwise the text fills the buffer and is the full text cut inside a last, non-hardened component. Two different paths are shown as the same text only if the text fills the buffer and one of them ends in a non-hardened component; in particular extended-key paths and address paths of at most seven components are always identified by their text. (That different paths never share a text is false for eight components and more: counterexample.)", "quantifier": "every pair of paths of 1..10 components and every buffer size", "why_tests_cant": "all pairs of paths", "anchors": ["unit-tests/utils/bip32.c:bip32_path_format", "src/ui/ui_bip32_path.c"]}
{"id": "C09", "title": "The address shown on screen identifies the raw address", "statement": "The base58 text of a byte string decodes back to the byte string; two different raw addresses of the same length are never shown as the same text, and the text of a P2PK or P2SH address always fits the screen buffers.", "quantifier": "every byte string up to the encoder's limit", "why_tests_cant": "all byte strings", "anchors": ["unit-tests/utils/base58.c:base58_encode", "src/commands/deriveaddress/da_ui.c", "src/commands/signtx/stx_ui.c:format_b58_id"]}
{"id": "C10", "title": "Pay-to-key and pay-to-script-hash trees are recognised exactly", "statement": "An output tree is shown as an address exactly when it is the byte-exact P2PK tree of a compressed key (prefix 02/03), shown as a script hash with the embedded hash exactly when it is the byte-exact P2SH tree, and the tree the device itself builds for a change output is always recognised as P2PK of that key.", "quantifier": "every byte string and every public key", "why_tests_cant": "all byte strings", "anchors": ["src/ergo/ergo_tree.c", "src/commands/signtx/stx_output.c:stx_output_info_add_tree_chunk"]}
{"id": "C11", "title": "Attested box id is the Ergo box id of the streamed box", "statement": "When box attestation completes, the id reported in every frame equals blake2b256 of the Ergo serialization of exactly the box that was streamed (value, tree, height, tokens with full ids, registers) followed by the declared transaction id and output index.", "quantifier": "every box, every way of splitting it into chunks, every transaction id and index, every interleaving the device accepts", "why_tests_cant": "unbounded boxes and chunkings", "anchors": ["src/commands/attestinput/ainpt_handler.c", "src/ergo/tx_ser_box.c:ergo_tx_serializer_box_id_hash"]}
{"id": "C12", "title": "Chunking does not matter", "statement": "Splitting the same tree, token list or register bytes differently into accepted chunks gives the same bytes hashed, the same final state and the same token callbacks.", "quantifier": "every two accepted chunkings of the same data", "why_tests_cant": "exponentially many chunkings", "anchors": ["src/ergo/tx_ser_box.c"]}
{"id": "C13", "title": "Declared sizes and counts are enforced", "statement": "A box finishes only after exactly the declared number of tree bytes (when sent as chunks), tokens and register bytes; a transaction finishes only after exactly the declared numbers of inputs, data inputs and distinct tokens have been received and the declared number of outputs completed.", "quantifier": "every command sequence", "why_tests_cant": "unbounded sequences", "anchors": ["src/ergo/tx_ser_full.c", "src/ergo/tx_ser_box.c", "src/ergo/tx_ser_input.c"]}
{"id": "C14", "title": "The signed bytes are the Ergo bytes-to-sign of the described transaction", "statement": "If the device returns a signature and the host never opened an output before completing the previous one, the message under the signature is exactly the Ergo bytes-to-sign serialization of the transaction described by the accepted commands of that session: inputs in order with empty proofs and their context extensions, data inputs, distinct token ids, outputs in order.", "quantifier": "every event history that ends in a signature", "why_tests_cant": "all histories of APDUs and button presses", "anchors": ["src/commands/signtx/operations/stx_op_p2pk.c", "src/ergo/tx_ser_full.c", "src/commands/signtx/stx_handler.c"]}
{"id": "C15", "title": "Which bytes of outputs are signed", "statement": "The outputs part of the signed message is the concatenation of what was streamed of each opened output, of which exactly the declared number were completed; if no more outputs were opened than declared, then all were completed and the message is the bytes-to-sign of the transaction described. (It is false that every signed byte belongs to a completed output: an output may be opened, partly streamed and abandoned by opening the next one, and its bytes stay; a concrete history whose signed bytes are those of a different transaction, paying a script never shown, is exhibited.)", "quantifier": "every event history that ends in a signature", "why_tests_cant": "needs a search over histories", "anchors": ["src/ergo/tx_ser_full.c:ergo_tx_serializer_full_add_box"]}
{"id": "C16", "title": "A failed call is final", "statement": "After any serializer call has returned an error, every later call returns an error too and nothing more is hashed, counted or called back, except that entries of tokens cut inside an index leave the box serializer (not the transaction serializer) usable. At the device level a refused signing or attestation command either changes nothing (BUSY and wrong P1/P2 answers) or ends the session: no continuation is accepted before a new approved start.", "quantifier": "every state and every call", "why_tests_cant": "all states", "anchors": ["src/ergo/tx_ser_full.c:res_error", "src/ergo/tx_ser_box.c:res_error", "src/commands/signtx/stx_handler.c:handler_err"]}
{"id": "C17", "title": "Transaction amount and fee on the final screen are exact", "statement": "On the final confirmation screen the amount equals the sum of the values of all inputs minus the values of all change and fee outputs, and the fee equals the sum of all fee outputs, as mathematical integers with no wrap-around.", "quantifier": "every event history reaching the final screen", "why_tests_cant": "all histories", "anchors": ["src/commands/signtx/stx_amounts.c", "src/commands/signtx/stx_ui.c:ui_stx_display_tx_state"]}
{"id": "C18", "title": "Token mint/burn figures on the final screen are exact", "statement": "The final screen lists exactly the token ids whose total over inputs differs from the total over outputs, each with the exact signed difference, as burning when inputs exceed outputs and minting otherwise.", "quantifier": "every event history reaching the final screen", "why_tests_cant": "all histories", "anchors": ["src/commands/signtx/stx_amounts.c", "src/commands/signtx/stx_ui.c:ui_stx_display_tx_state"]}
{"id": "C19", "title": "Amounts that do not fit are refused", "statement": "If adding an input or output would make a running total leave its 64-bit range, or change and fee exceed the inputs received, the command is refused and the session ends; no signature can follow.", "quantifier": "every state and amount", "why_tests_cant": "2^64 values and all histories", "anchors": ["src/commands/signtx/stx_amounts.c", "src/common/safeint.h"]}
{"id": "C20", "title": "A token id is used at most once per output with a non-zero amount", "statement": "Within one output a second entry for the same token id is refused whenever the earlier entry had a non-zero amount, so the amount shown for a token of an output is the total of that token in the output.", "quantifier": "every output and token list", "why_tests_cant": "all lists", "anchors": ["src/commands/signtx/stx_output.c:stx_output_info_add_token"]}
{"id": "C21", "title": "Every output is either shown and approved, or is an automatic fee or change output", "statement": "At the moment a signature is returned, every completed output of the transaction either had its confirmation screens displayed and approved by the user after it was completed, or is a miners-fee output without tokens, or is a change output to a path of the device that satisfies the automatic rule.", "quantifier": "every event history that ends in a signature", "why_tests_cant": "all histories of APDUs and button presses", "anchors": ["src/commands/signtx/operations/stx_op_p2pk.c:stx_operation_p2pk_should_show_output_confirm_screen", "src/commands/signtx/stx_handler.c:show_output_screen_if_needed"]}
{"id": "C22", "title": "Exactly which change outputs are not shown", "statement": "An output is not shown exactly if it is incomplete, or a miners' fee without tokens, or change to a wallet path 44'/429'/a'/c/i whose chain c is that of the signing path with an index less than 20 above the signing index, or change to any wallet path after change to a path of five components was the last output shown. (The intended rule, same account as the signing path or the very path approved before, is false: two counterexamples sign change to another account, and to a distant index, unseen.)", "quantifier": "every event history", "why_tests_cant": "needs the right pair of paths", "anchors": ["src/common/bip32_ext.h:bip32_path_is_equal", "src/common/bip32_ext.h:bip32_path_same_account"]}
{"id": "C23", "title": "Confirmation screens show the output's own data", "statement": "The screens displayed for an output show the destination of exactly the tree that went into the signed bytes, the output's own value and, for each token of the output with a non-zero amount, its id and exact amount.", "quantifier": "every output of every history", "why_tests_cant": "all outputs and histories", "anchors": ["src/commands/signtx/stx_ui.c:ui_stx_display_output_state", "src/commands/signtx/stx_output.c"]}
{"id": "C24", "title": "What the screen of a change output says", "statement": "The screen of a change output has exactly one page, with its path. (It does not disclose value or tokens: two histories with the same screen for change of different value and tokens are exhibited.)", "quantifier": "every change output", "why_tests_cant": "all outputs", "anchors": ["src/commands/signtx/stx_ui.c:ui_stx_add_output_screens"]}
{"id": "C25", "title": "Only attested inputs are counted", "statement": "Every input that contributes to a signed transaction, and every token amount counted for it, came from a frame whose 16-byte tag is the HMAC of the frame data under the device's session key.", "quantifier": "every event history that ends in a signature", "why_tests_cant": "all histories", "anchors": ["src/commands/signtx/stx_handler.c:handle_input_frame", "src/helpers/input_frame.c"]}
{"id": "C26", "title": "An accepted frame was produced by this device's attestation", "statement": "If tags cannot be forged (any frame carrying a valid tag was output by this device since start-up), every accepted input frame is byte-for-byte a frame produced by a completed attestation, so its value and tokens are those of the streamed box.", "quantifier": "every event history and every adversarial frame", "why_tests_cant": "all histories", "anchors": ["src/commands/attestinput/ainpt_response.c", "src/commands/signtx/stx_handler.c:handle_input_frame"]}
{"id": "C27", "title": "Attestation frames carry the whole box exactly once", "statement": "The frames of a completed attestation number max(1, ceil(n/4)); concatenating their token lists gives the box's tokens in order with their amounts; every frame repeats the same box id, frame count and value; a frame index outside the range is refused.", "quantifier": "every attested box and every frame index", "why_tests_cant": "all boxes", "anchors": ["src/commands/attestinput/ainpt_response.c"]}
{"id": "C28", "title": "Attestation refuses repeated tokens and more than 20 tokens", "statement": "An attested box never lists the same token id twice and never more than 20 tokens; a stream that would is refused.", "quantifier": "every token stream", "why_tests_cant": "all streams", "anchors": ["src/commands/attestinput/ainpt_handler.c:box_token_cb", "src/ergo/tx_ser_box.c:ergo_tx_serializer_box_init"]}
{"id": "C29", "title": "An input is complete only with all its frames in order", "statement": "An input enters the signed bytes only after its frames 0,1,..,count-1 have all been accepted in that order, all for the same box id; a frame out of order, repeated, or for another box is refused.", "quantifier": "every sequence of frames", "why_tests_cant": "all sequences", "anchors": ["src/ergo/tx_ser_input.c"]}
{"id": "C30", "title": "APDU dispatch", "statement": "Every APDU gets exactly one of: the class error for a wrong CLA, the instruction error for an unknown INS, the parameter error for P1/P2 outside the allowed set, or handling by the one handler of its INS; the first three leave the device state unchanged.", "quantifier": "every APDU in every state", "why_tests_cant": "all APDUs times all states", "anchors": ["src/apdu_dispatcher.c"]}
{"id": "C31", "title": "Version and name queries are harmless", "statement": "The version and name commands answer the same constant bytes in every state, even while an approval is on screen, and change nothing.", "quantifier": "every state", "why_tests_cant": "all states", "anchors": ["src/commands/app_version.c", "src/commands/app_name.c"]}
{"id": "C32", "title": "While an approval is on screen nothing else can happen", "statement": "While a confirmation is displayed every key, address, attestation and signing command with acceptable P1/P2 is answered BUSY without any state change, so what the user approves is what was displayed.", "quantifier": "every state with a screen up and every APDU", "why_tests_cant": "all states", "anchors": ["src/context.h:app_is_ui_busy", "src/commands/attestinput/ainpt_handler.c", "src/commands/deriveaddress/da_handler.c", "src/commands/extpubkey/epk_handler.c", "src/commands/signtx/stx_handler.c"]}
{"id": "C33", "title": "A signature needs the user's session approval and final approval", "statement": "A signature is only ever returned in direct response to the user pressing approve on the final transaction screen, in a session which the user approved at its start, with no reset in between.", "quantifier": "every event history", "why_tests_cant": "all histories", "anchors": ["src/commands/signtx/stx_ui.c:ui_stx_operation_execute_action", "src/commands/signtx/operations/stx_op_p2pk.c:ui_stx_operation_p2pk_send_response"]}
{"id": "C34", "title": "At most one signature per session", "statement": "Between two signatures there is always a new signing start command and a new user approval of it; after a signature the session is gone.", "quantifier": "every event history", "why_tests_cant": "all histories", "anchors": ["src/commands/signtx/stx_ui.c:ui_stx_operation_execute_action", "src/context.c:app_set_current_command"]}
{"id": "C35", "title": "Session id must match", "statement": "A signing or attestation continuation command is accepted only if its P2 equals the session id the device returned for the current session of that same command; anything else ends the session.", "quantifier": "every state and APDU", "why_tests_cant": "all states", "anchors": ["src/helpers/cmd_macros.h:CHECK_SESSION"]}
{"id": "C36", "title": "Session ids are non-zero", "statement": "Every session id returned is a non-zero byte, drawn for the start command of its own session. (That a new id differs from the id of the session before is false, because the context is cleared before the comparison: counterexample.)", "quantifier": "every random source and history", "why_tests_cant": "all random streams", "anchors": ["src/helpers/session_id.h", "src/context.c:app_set_current_command"]}
{"id": "C37", "title": "Errors wipe the session", "statement": "Whenever a key, address, attestation or signing command answers with an error other than BUSY or a P1/P2 refusal, the current command and its whole context are cleared. Exact exceptions: an address request with an invalid network id, and a P1/P2 error.", "quantifier": "every state and APDU", "why_tests_cant": "all states", "anchors": ["src/commands/attestinput/ainpt_handler.c:handler_err", "src/commands/deriveaddress/da_handler.c:handler_err", "src/commands/extpubkey/epk_handler.c:handler_err", "src/commands/signtx/stx_handler.c:handler_err"]}
{"id": "C38", "title": "Another command abandons the session", "statement": "If a key, address or attestation command is handled while a signing session is open, the session cannot be continued: every later continuation command is refused until a new start is approved; likewise for attestation.", "quantifier": "every event history", "why_tests_cant": "all interleavings", "anchors": ["src/context.c:app_set_current_command"]}
{"id": "C39", "title": "Keys and addresses leave the device only with consent", "statement": "An extended public key or an address is returned only in response to the user approving the corresponding screen, or at once to a request carrying the non-zero application token the user approved last.", "quantifier": "every event history", "why_tests_cant": "all histories", "anchors": ["src/commands/extpubkey/epk_handler.c", "src/commands/deriveaddress/da_handler.c"]}
{"id": "C40", "title": "What is exported is what was asked and shown", "statement": "The exported extended public key is the compressed public key and chain code of the requested path, which is an all-hardened 44'/429'/account' path; the exported or displayed address is the P2PK address of the key at the requested 44'/429'/account'/{0,1}/index path on the requested network; the approval screen shows that path.", "quantifier": "every request in every state", "why_tests_cant": "all paths", "anchors": ["src/commands/extpubkey/epk_handler.c", "src/commands/deriveaddress/da_handler.c", "src/ergo/address.c"]}
{"id": "C41", "title": "The remembered application token changes only by approval", "statement": "The remembered application token changes only when the user approves an export, attestation or signing screen, and then becomes the token of that request; a zero token is never treated as known.", "quantifier": "every event history", "why_tests_cant": "all histories", "anchors": ["src/context.h:app_set_connected_app_id", "src/helpers/session_id.h:is_known_application"]}
{"id": "C42", "title": "Rejecting gives nothing away", "statement": "When the user rejects any screen the device answers only the deny status without data, and the session is cleared.", "quantifier": "every state with a screen up", "why_tests_cant": "all states", "anchors": ["src/commands/attestinput/ainpt_ui.c", "src/commands/deriveaddress/da_ui.c", "src/commands/extpubkey/epk_ui.c", "src/commands/signtx/stx_ui.c"]}
{"id": "C43", "title": "Responses have fixed sizes", "statement": "Every response is either a bare status word or success with data of exactly the documented length: 4, 4, 65, 38, 1, 1, 59+40k (k<=4), 1, 56; every response fits the APDU buffer, and every event is answered at most once.", "quantifier": "every event in every reachable state", "why_tests_cant": "all states", "anchors": ["src/helpers/response.h", "src/commands/attestinput/ainpt_response.c", "src/commands/deriveaddress/da_response.c", "src/commands/extpubkey/epk_response.c", "src/commands/signtx/stx_response.c"]}
{"id": "C44", "title": "Signatures verify", "statement": "A returned signature verifies under the Ergo Schnorr rule: with c the first 24 bytes and z the last 32, recomputing the commitment z*G - c*PK and hashing the commitment prefix and the message gives c back.", "quantifier": "every key, nonce and message", "why_tests_cant": "all scalars and messages", "anchors": ["src/ergo/schnorr.c"]}
{"id": "C45", "title": "Nonce and signature hygiene", "statement": "A signature is 24+32 bytes; the nonce is never zero nor above the group order, a fresh nonce is drawn for every session, it is used for at most one signature, and the secret nonce is wiped from the context after the signing attempt whatever the outcome.", "quantifier": "every random source, key and history", "why_tests_cant": "all random streams", "anchors": ["src/ergo/schnorr.c", "src/commands/signtx/operations/stx_op_p2pk.c:ui_stx_operation_p2pk_send_response"]}
{"id": "C46", "title": "Range of nonce and secret", "statement": "The check of scalars admits exactly 1 .. group order. If multiplication by the group order fails, as in a library without an encoding of the point at infinity, nonce and secret of every signature are strictly between 0 and the group order. (The check alone does not give this: the group order passes.)", "quantifier": "every 32-byte scalar", "why_tests_cant": "2^256 values", "anchors": ["src/ergo/schnorr.c:ergo_secp256k1_schnorr_p2pk_sign_init"]}
{"id": "C47", "title": "The screen table never overflows", "statement": "Every flow the app builds writes only inside the screen table, with the loop and end markers, and the allocation checks never fail for the flows the app uses.", "quantifier": "every flow with any number of dynamic pages", "why_tests_cant": "all flows", "anchors": ["src/ui/ui_main.h", "src/ui/ui_dynamic_flow.c"]}
{"id": "C48", "title": "Dynamic page navigation stays in range and reaches every page", "statement": "Whatever buttons are pressed, the page requested from the show callback is always below the page count; moving right from the entry visits every page in order before leaving, and moving left visits them in reverse.", "quantifier": "every button sequence and page count", "why_tests_cant": "all button sequences", "anchors": ["src/ui/ui_dynamic_flow.c"]}
{"id": "C49", "title": "Token ids on screen identify the token", "statement": "Two different token ids are shown differently. False: the middle of the id is cut out (12 of 64 hex digits, 50 on Nano S); refuted. What is shown determines the kept digits exactly, and a shown id is at most 55 characters.", "quantifier": "every pair of token ids", "why_tests_cant": "all ids", "anchors": ["src/commands/signtx/stx_ui.c:id_string_remove_middle"]}
{"id": "C50", "title": "Amounts on screen are exact", "statement": "The text shown for a nanoERG amount is the exact decimal value with nine fraction digits and always fits; different amounts are shown as different texts; token amounts are exact decimals.", "quantifier": "every u64 amount", "why_tests_cant": "2^64 values", "anchors": ["src/commands/signtx/stx_ui.c:format_erg_amount"]}
{"id": "C51", "title": "Network rules", "statement": "Signing accepts exactly network bytes 0x00 and 0x10; address requests accept exactly networks 0..252, and the first byte of the address is the network plus the type without wrap-around.", "quantifier": "every network byte in every state", "why_tests_cant": "all states", "anchors": ["src/ergo/network_id.h", "src/ergo/address.c", "src/commands/signtx/operations/stx_op_p2pk.c:stx_operation_p2pk_init"]}
{"id": "C52", "title": "No undefined union access is reachable", "statement": "In no reachable state does any command or button read a member of a context union other than the one last written, index the token arrays outside their bounds, or call a missing callback.", "quantifier": "every event history", "why_tests_cant": "all histories", "anchors": ["src/context.h", "src/ergo/tx_ser_full.h", "src/commands/signtx/stx_output.h", "src/commands/signtx/operations/stx_op_p2pk.h"]}
{"id": "C53", "title": "Displaying a mint amount overflows for one value only", "statement": "Computing the pages of the final confirmation is free of undefined behaviour unless some token of the transaction has a balance of exactly -2^63. (For that balance the minimum integer is negated: a history reaching it is exhibited.)", "quantifier": "every event history reaching the final screen", "why_tests_cant": "one value in 2^64", "anchors": ["src/commands/signtx/stx_ui.c:ui_stx_display_tx_state"]}
{"id": "C54", "title": "Trailing data", "statement": "The start, header and export commands refuse extra bytes after their fields; the exact commands that ignore extra bytes are the input frame, the change path and the confirm command.", "quantifier": "every APDU payload", "why_tests_cant": "all payloads", "anchors": ["src/helpers/cmd_macros.h:CHECK_PARAMS_FINISHED", "src/commands/signtx/stx_handler.c"]}
{"id": "C55", "title": "What the displayed destination says about the output script", "statement": "Two outputs whose destination page reads the same have the same destination; or both are scripts standing for the same 24-byte hash (a script hash tree or a script shown by its hash); or both are change paths of which one has a text of 70 characters or more. The page of a public key determines the tree and the network. (The page does not determine the script in general: a script and the P2SH tree embedding the first 24 bytes of its hash have the same page, exhibited.)", "quantifier": "every pair of trees", "why_tests_cant": "all pairs", "anchors": ["src/commands/signtx/stx_ui.c:output_info_print_address"]}
{"id": "C56", "title": "What a box id says about the attested box", "statement": "Unless the hash has a collision on the two boxes, attested boxes with the same id have the same value; with the same length of script also the same script, height and tokens; with the same length of registers too they are the same box. (Without the lengths the tokens are not determined, since the hashed fields are not self-delimiting: a history is exhibited that signs a transaction with a box attested with tokens, burning these unseen.)", "quantifier": "every pair of completed attestations", "why_tests_cant": "pairs of histories", "anchors": ["src/commands/attestinput/ainpt_handler.c", "src/ergo/tx_ser_box.c"]}
{"id": "C57", "title": "Exactly which signing commands are accepted", "statement": "A signing command other than a start is accepted if and only if nothing is asked on the screen, its id is that of an open, approved session, and the transaction described so far admits it: each part in its turn and within the counts announced in the header, frames attested, in order and with amounts that do not overflow, at most 20 tokens, scripts in chunks of 255 bytes, fee and change within the input value, change paths that are address paths, token indices announced, no token twice in an output, and confirmation only when all outputs are complete. Nothing else (earlier refusals, screens, other requests) plays a role.", "quantifier": "every history, every command and data", "why_tests_cant": "all histories and data; exact characterisation, both directions", "anchors": ["src/commands/signtx/stx_handler.c", "src/commands/signtx/operations/stx_op_p2pk.c", "src/ergo/tx_ser_full.c", "src/ergo/tx_ser_input.c", "src/ergo/tx_ser_box.c"]}
{"id": "C58", "title": "Exactly which attestation commands are accepted", "statement": "An attestation command other than a start is accepted if and only if nothing is asked on the screen, its id is that of an open session, and the box described so far admits it: script chunks of 255 bytes except the last and never past the announced length, then whole token entries up to the announced number with no id twice, then registers up to the announced length, and a frame request with one index byte below the number of frames once the box is complete. Nothing else plays a role.", "quantifier": "every history, every command and data", "why_tests_cant": "all histories and data; exact characterisation, both directions", "anchors": ["src/commands/attestinput/ainpt_handler.c", "src/ergo/tx_ser_box.c"]}
{"id": "C59", "title": "Exactly which opening requests are accepted", "statement": "A request for an extended public key, for an address, to start an attestation or to start a signing session is accepted (answered, or put to the user on the screen) if and only if nothing is being asked on the screen and the request is in order: parameters 1 or 2, data of exactly the length its leading bytes call for, a path of the right form with at most ten components that the device can derive and whose text fits the screen (or, for exports, the token approved last), a network id up to 252 for addresses and 0x00 or 0x10 for signing, at most 20 tokens and 32768 bytes of script and registers for a box, a session id and one usable nonce among the first hundred drawn. Apart from the token approved last no earlier event plays a role.", "quantifier": "every history, every data and parameters of the four opening requests, every outcome of the random source", "why_tests_cant": "all histories, data and random draws; exact characterisation, both directions", "anchors": ["src/commands/extpubkey/epk_handler.c", "src/commands/deriveaddress/da_handler.c", "src/commands/attestinput/ainpt_handler.c:handle_init", "src/commands/signtx/stx_handler.c:handle_init_p2pk", "src/ergo/schnorr.c:ergo_secp256k1_schnorr_p2pk_sign_init"]}
{"id": "C60", "title": "Every box within the limits can be attested", "statement": "For every box within the limits of the device (32-byte transaction id, script and registers of at most 32768 bytes, at most 20 tokens and none twice, fields in range), after every history in which nothing is being asked on the screen, the wallet's sequence of commands (start, script, tokens and registers cut into packets) is accepted command by command once the user approves, and each frame the wallet then asks for is answered with the authenticated frame of exactly that box. No state left behind by earlier exchanges can prevent it.", "quantifier": "every box within the limits, every history before, every outcome of the random source that yields an id", "why_tests_cant": "all boxes and all histories; a liveness property", "anchors": ["src/commands/attestinput/ainpt_handler.c", "src/commands/attestinput/ainpt_response.c", "src/ergo/tx_ser_box.c", "doc/INS-20-ATTEST-BOX.md"]}
{"id": "C61", "title": "Every transaction within the limits can be signed", "statement": "For every transaction within the limits of the device (inputs that are boxes within the limits, at most 20 distinct tokens, scripts, registers and context extensions of at most 32768 bytes, amounts in range, fee and change covered by the inputs), after every history in which nothing is being asked on the screen: if the start request is in order and the user approves whatever is shown, each of the wallet's commands is accepted, with the frames of C60 for the inputs, and the last approval is answered with a signature, under the key of the start request, of exactly the bytes of that transaction. The only exception: an error if the hash that yields the challenge begins with 24 zero bytes.", "quantifier": "every transaction within the limits, every history before, every signing path and network in order, every outcome of the random source that yields an id and a usable nonce", "why_tests_cant": "all transactions and all histories; a liveness property", "anchors": ["src/commands/signtx/stx_handler.c", "src/commands/signtx/operations/stx_op_p2pk.c", "src/commands/signtx/stx_ui.c", "src/ergo/tx_ser_full.c", "src/helpers/input_frame.c", "doc/INS-21-SIGN-TRANSACTION.md"]}
{"id": "C62", "title": "What else the signed bytes could be read as", "statement": "For every node whose scripts, register blocks and context extensions are words of prefix-free grammars: if the transaction described in the session has all its outputs complete and is readable by the node, the signed bytes are its bytes and no other transaction the node can read has these bytes. Likewise for boxes: the id of attested boxes with readable scripts and registers determines the box, unless the hash has a collision on them. (The device does not look into scripts: a history is exhibited with every output complete, shown and approved, whose signed bytes a node with only the standard scripts reads as a transaction paying other scripts.)", "quantifier": "every history ending in a signature, every prefix-free grammar, every other transaction", "why_tests_cant": "all pairs of transactions and all grammars", "anchors": ["src/ergo/tx_ser_full.c", "src/ergo/tx_ser_box.c", "src/commands/signtx/stx_output.c"]}
{"id": "C63", "title": "Dependence on the wallet seed", "statement": "Take two devices that differ only in the wallet seed, with keys usable for the same paths. For the same sequence of requests and user actions they behave the same: every answer, every screen and every state change agrees, except that an exported key is the key of the requested path under the respective seed, an address (exported or shown) is the one of the respective seed, and the answer to the final approval is a signature, or its failure, under the respective seed. Statuses and answer lengths agree as well, up to that last exception. As long as no key, address or signature is requested nothing depends on the seed: attestations are the same on both devices for the same session key.", "quantifier": "every pair of seeds, every history", "why_tests_cant": "all pairs of seeds and all histories of both devices", "anchors": ["src/apdu_dispatcher.c", "src/commands", "src/helpers/crypto.c"]}
{"id": "C64", "title": "What a signature can cost", "statement": "Let a node find a transaction in the bytes under a signature, and boxes on the ledger under the ids of its inputs. Suppose nobody but the device makes frame tags, the hash does not collide on the boxes concerned, and the transaction described in the session has all its outputs complete and is readable by the node. Then the total value of the boxes spent is what the outputs return to keys of the wallet, plus the amount and the fee on the final screen the user approved; the fee is exactly what goes to the miners; every other output was shown with its address, its own value and all its tokens, and approved; and if the transaction keeps the total (as a node demands) the amount is exactly what these outputs hold. If the boxes are readable too, the final screen lists exactly the tokens of which the outputs hold more or less than the boxes spent, with the exact difference.", "quantifier": "every history ending in a signature, every prefix-free grammar of a node, every transaction the node reads, every set of ledger boxes", "why_tests_cant": "all histories, all transactions and all ledgers", "anchors": ["src/commands/signtx", "src/commands/attestinput", "src/ergo/tx_ser_full.c", "src/ergo/tx_ser_box.c"]}
{"id": "C65", "title": "Failing primitives give nothing wrong away; key material is erased", "statement": "Let the cryptographic primitives of the platform (derivation, key setup, hash, comparison, scalar multiplication, modular arithmetic) fail at any call, but be right when they report success. Then whatever the memory held before, a signature that comes out is the Schnorr signature by the key of the path, with a nonce drawn in this session, of the bytes described in between; a public key that comes out is the one of the path. After a successful start, final step or key export no private key, nonce or intermediate value is left in the local buffers or in the context; after failures the buffers that may still hold something are exactly: the raw key buffer when derivation itself fails, and the buffer of the final step. With primitives that never fail everything coincides with the model used for the other properties. (That nothing is left after a failure is refuted: if the last addition fails the product of challenge and key stays on the stack and yields the key.)", "quantifier": "every behaviour of every primitive at every call, every previous content of memory, every path, nonce sequence and message", "why_tests_cant": "all combinations of failures cannot be provoked on a device, and what stays in memory is not observable by a test", "anchors": ["src/helpers/crypto.c", "src/ergo/schnorr.c", "src/commands/signtx/operations/stx_op_p2pk.c:stx_operation_p2pk_init", "src/commands/signtx/operations/stx_op_p2pk.c:stx_operation_p2pk_send_response"]}
{"id": "C66", "title": "What the buttons do", "statement": "Operate the device by its two buttons, with the platform's flow engine walking the table of screens the application builds. While a question is there, the display shows one of its cards - the application's screens and computed pages in order, then Approve and Reject - and which one follows from the presses since it was put: right and left turn the cards on a ring, first through the parts of a long text. A press is answered to the host only by both buttons on Approve (approval), both buttons on Reject (refusal), both buttons on the path page when signing begins (approval), or turning to a page that cannot be computed (error); on Approve and Reject both buttons always are. A signature needs both buttons with Approve displayed at the final question. Whenever Approve is displayed, either Reject was displayed before or every card with all its parts was. Unless a page fails, every card is reached by right presses, at most one per part. Without a question the display shows a menu card, or the heading of a key or address request that was refused because its path cannot be written out with no question put since, and no press is answered; the application is left only by Quit, and then nothing happens any more. (Three stronger claims are refuted: from the first card two left presses lead to Approve, so a signature can be given without any page having been displayed; and both buttons on the path page of a key or address request kill the buttons, so the question can never be answered until power-off; and that an idle display shows nothing but the menus.)", "quantifier": "every sequence of host commands and button presses of any length, every splitting of texts into parts, every history", "why_tests_cant": "all interleavings of button presses with commands, of any length, on any display", "anchors": ["src/ui/ui_dynamic_flow.c", "src/ui/ui_approve_reject.c", "src/ui/ui_bip32_path.c", "src/ui/ui_menu.c", "src/ui/ui_main.h", "src/commands/signtx/stx_ui.c"]}
{"id": "C67", "title": "Nothing survives a restart, and little a new start", "statement": "Let the application be cut off at any point - power loss, a transport reset, in the middle of a command - and be started again on whatever memory the earlier run left behind. It then answers every sequence of events exactly as on its first start. So in the whole life of a device each run by itself is a history from the first start, with the session key drawn at its start: a session command is accepted only after the start of that session in the same run; an input frame only with a tag under the key of the same run; a signature, a key or an address is given out only on an approval given in the same run. Within a run too: when no question is on the screen, a key or address request, or the start of a session, and everything after it, is answered the same way after any two pasts that leave the same application token remembered.", "quantifier": "every content of memory at the start, every life of any number of runs of any length cut off anywhere, every two histories, every continuation", "why_tests_cant": "all memory contents at restart and all crash points; any pair of histories and any continuation", "anchors": ["src/app_main.c:app_main", "src/context.c:app_init", "src/context.c:app_set_current_command", "src/context.h:app_ctx_t", "src/ui/ui_menu.c:ui_menu_main"]}
{"id": "C68", "title": "Failing calls end in an error, and local buffers do not matter", "statement": "Let calls into the operating system fail at any point of any command or button press: starting, feeding or finishing a hash (which may leave any content behind), the one-shot hash, key derivation, the public key, any round of the nonce loop, the last step of signing. Let the local arrays used for building encodings, addresses and answers hold anything beforehand. Then each event either has exactly the effect it has when nothing fails, up to random draws without use, or is answered by one of four error codes without data, and the command in progress is gone. Without a failing call the arrays make no difference: none is too small, none is read where nothing was written. So every history with failures has the states and outputs of one without, in which the failed events are replaced by refused ones; in particular a signature that comes out is of exactly the bytes described, in an approved session, on approval of the final screen. (HMAC-SHA256 is the exception, as its result is ignored: if it fails leaving the right bytes behind a forged input frame is accepted, and the device can send a frame with a wrong tag as a success.)", "quantifier": "every history, every pattern of failures at every call in every event, every content of the arrays", "why_tests_cant": "all combinations of failing calls and memory contents, which cannot be provoked on a device, over all histories", "anchors": ["src/ergo/tx_ser_full.c", "src/ergo/tx_ser_box.c", "src/ergo/tx_ser_input.c", "src/ergo/tx_ser_table.c", "src/ergo/address.c", "src/common/gve.c", "src/common/rwbuffer.c", "src/helpers/blake2b.c", "src/commands/signtx/operations/stx_op_p2pk.c", "src/commands/attestinput/ainpt_response.c", "src/commands/signtx/stx_handler.c"]}
{"id": "C69", "title": "What each error code says", "statement": "Whenever the device answers with an error code, the answer carries no data and the code is right about its cause. For every request, every command of an attestation or signing session, every packet that is not a command and every press of a button the specification lists, code by code, the fact that the code reports - the data are shorter or longer than their leading bytes call for, the path is not of the required form, no session is open or its id is another, the part of the box or transaction already complete or not yet due, the frame's tag is not the device's, more tokens than declared or than the device holds, the balance of a token outside the representable range, and so on - and that fact holds of the request and the history before it; a code that is not listed for an event is never the answer to it. In particular Deny is answered only to a rejection while a question is on the screen, and Bad frame signature only to an input frame whose tag differs from the one under the key of this run.", "quantifier": "every history, every event after it, every error code", "why_tests_cant": "all histories and all data; each code is about a set of inputs, not one", "anchors": ["src/sw.h", "src/apdu_dispatcher.c", "src/commands/extpubkey/epk_handler.c", "src/commands/deriveaddress/da_handler.c", "src/commands/attestinput/ainpt_handler.c", "src/commands/signtx/stx_handler.c", "src/commands/signtx/operations/stx_op_p2pk.c", "src/ergo/tx_ser_full.c", "src/ergo/tx_ser_box.c", "src/ergo/tx_ser_input.c", "src/ergo/tx_ser_table.c"]}
{"id": "C70", "title": "Commands are read from the received bytes and from nowhere else", "statement": "A received packet lies in the I/O buffer, with whatever earlier packets and answers left there behind it, or nothing at all. What the device does depends on the received bytes alone: it does what it does for the command those bytes spell out (class, instruction, two parameters, a length byte, exactly so many data bytes; anything else is refused as no command), never reads outside the buffer, and never takes a byte behind the packet for data, whatever lengths and counts the packet claims. Every history with packets in memory is a history of the decoded commands and conversely.", "quantifier": "every content of the I/O buffer, every received length, every state of the device, every history", "why_tests_cant": "all contents of memory behind a packet; a read one byte too far goes unnoticed in a test", "anchors": ["src/app_main.c:app_main", "src/apdu_dispatcher.c", "src/common/buffer_ext.h", "src/common/rwbuffer.h", "src/commands/extpubkey/epk_handler.c", "src/commands/deriveaddress/da_handler.c", "src/commands/attestinput/ainpt_handler.c", "src/commands/signtx/stx_handler.c", "src/helpers/input_frame.c", "src/ergo/tx_ser_box.c", "src/ergo/tx_ser_input.c", "src/ergo/tx_ser_table.c", "src/ergo/tx_ser_full.c"]}
{"id": "C71", "title": "The hash is BLAKE2b-256 of everything fed to it", "statement": "However the data are cut into pieces - empty pieces, pieces of one byte, pieces crossing the internal block of 128 bytes, pieces longer than several blocks - starting the hash, feeding the pieces one after the other and finishing it succeed and give the BLAKE2b-256 digest (RFC 7693) of the pieces put together; the one-shot function gives the same value, of 32 bytes; a finished hash cannot be finished again. So the transaction id the device signs is the BLAKE2b-256 of the transaction's bytes no matter how the host split them.", "quantifier": "every list of pieces of any lengths", "why_tests_cant": "all lengths and all ways of cutting; test vectors cover a few", "anchors": ["src/helpers/blake2b.c:blake2b_256_init", "src/helpers/blake2b.c:blake2b_update", "src/helpers/blake2b.c:blake2b_256_finalize", "src/helpers/blake2b.c:blake2b_256", "src/helpers/blake2b.h", "unit-tests/utils/blake2b-ref.c", "unit-tests/utils/blake2-impl.h", "unit-tests/utils/cx.c"]}
{"id": "C72", "title": "One answer to each command, and the packets on the wire", "statement": "Every command is answered exactly once: at once, or, if it puts a question on the screen, when the user decides (or a page cannot be drawn); nothing is answered without a command, so at any time the host has received as many answers as it sent commands, less one while a question is open. On the wire an answer is its data followed by a two-byte status; different answers are different packets, and every answer fits. Commands and answers overwrite each other in the one I/O buffer, which may hold anything at the start: what leaves the device is nevertheless exactly the answers to the commands that the received packets spell out.", "quantifier": "every history, every content of the I/O buffer, every sequence of packets and button presses", "why_tests_cant": "all histories and memory contents; a missing or a second answer shows only in rare states", "anchors": ["src/helpers/response.h", "src/sw.h", "src/app_main.c:app_main", "src/apdu_dispatcher.c", "src/commands/signtx/stx_ui.c", "src/commands/attestinput/ainpt_ui.c", "src/commands/extpubkey/epk_ui.c", "src/commands/deriveaddress/da_ui.c", "src/ui/ui_dynamic_flow.c"]}
{"id": "C73", "title": "What the session key, the session ids and chance decide", "statement": "The random key drawn at start-up decides nothing but the 16-byte tags of attested frames: with another key (and any other way of computing tags) that gives the frames given out or presented the same tags, the device does exactly the same, and until a frame is given out or presented nothing depends on the key at all. Session ids are mere names: rename those the random source offers and those the host sends, and the device does the same with the ids it gives out renamed. The nonce decides nothing but the signature: with other random numbers, but the same ids, every screen and every answer is the same except the signature given at the final approval.", "quantifier": "every history, every two keys, every renaming of the ids, every sequence of random numbers", "why_tests_cant": "all keys, ids and random numbers; a leak of a secret into an answer or a screen shows only by comparing runs", "anchors": ["src/context.h", "src/app_main.c", "src/helpers/session_id.h", "src/helpers/input_frame.c", "src/commands/attestinput/ainpt_handler.c", "src/commands/attestinput/ainpt_response.c", "src/commands/signtx/stx_handler.c", "src/commands/signtx/operations/stx_op_p2pk.c", "src/ergo/schnorr.c"]}
{"id": "C74", "title": "The whole device, from the packets and the display alone", "statement": "Seen from outside - packets in and out of the I/O buffer, two buttons, the display - the device behaves as the single-session model on which the other properties are stated, in each run of its life, whatever memory, page buffers and I/O buffer earlier or cut-off runs left. In particular: a packet that carries a signature leaves the device only at the moment both buttons are pressed while Approve is displayed on the final question of a signing session, no press having been answered since the command that put the question, and after all its screens were displayed in all their parts (or the user went by Reject); what that packet can cost is the amount and fee so displayed; a packet that carries an extended key or an address likewise, or else it answers a request with an application token the user has approved before.", "quantifier": "every life of the device (any number of runs, each cut off anywhere, any left-over memory), every packet and every button press", "why_tests_cant": "all sequences of packets and presses over all left-over memory contents", "anchors": ["src/app_main.c", "src/context.c", "src/context.h", "src/common/rwbuffer.c", "src/ui/ui_main.c", "src/ui/ui_menu.c", "src/ui/ui_dynamic_flow.c", "src/ui/ui_approve_reject.c", "src/commands/signtx/stx_ui.c", "src/commands/extpubkey/epk_ui.c", "src/commands/deriveaddress/da_ui.c"]}
{"id": "C75", "title": "A wallet that follows the documents gets its transaction signed", "statement": "A wallet that sees nothing but packets, sends the documented commands for a transaction within the documented limits - attests every input and collects its frames, opens a signing session for a path, streams tokens, inputs, data inputs and outputs, asks for the signature - and only sends when the previous answer has come, while the user presses buttons as they like but does not refuse (if every change path fits its screen and no token balance is exactly -2^63, that means: never presses both buttons while Reject is displayed; otherwise also no answer to a single button): no answer is ever an error, the wallet always knows what to send next, and when it ends it holds a signature of exactly that transaction by the key of that path, with a nonce drawn when the session was opened; the one exception is the error for a challenge that hashes to zero. And from every moment of such a talk with the device up, also with a question open and any card of it displayed, it can be carried on to that end by sending packets and pressing buttons.", "quantifier": "every transaction within the limits, every earlier life of the device, every sequence of presses that does not refuse, and every moment of the talk", "why_tests_cant": "all transactions, all earlier histories and all interleavings of packets and presses", "anchors": ["doc/INS-20-ATTEST-BOX.md", "doc/INS-21-SIGN-TRANSACTION.md", "src/app_main.c", "src/commands/attestinput/ainpt_handler.c", "src/commands/signtx/stx_handler.c", "src/commands/signtx/operations/stx_op_p2pk.c", "src/ui/ui_approve_reject.c"]}
{"id": "C76", "title": "There is a way out of every question, and the device serves again", "statement": "While a question is displayed and the buttons still do something, the user can end it without approving: single presses lead to Reject, at most one for each part of the text there is to read, none of them answered, and both buttons there send a refusal and nothing else. This holds whatever pages of the question cannot be computed, since the pages on one side of the user were displayed on the way. So after anything that may have happened - any packets, any presses, any memory left by earlier runs - presses alone bring the device to where every command has been answered, with at most one refusal sent on the way; and from there any wallet that follows the documents gets any transaction within the limits signed. The buttons do nothing only when the user has left the application, or has pressed both buttons on the path of a key or address request.", "quantifier": "every transport, left-over memory and run; every question, every page of it that cannot be computed, every earlier press; every transaction within the limits afterwards", "why_tests_cant": "tests go through each question the straight way, with pages that can be computed; a way out must exist from every position of every question, in particular when a page ahead fails, and after every history", "anchors": ["src/ui/ui_dynamic_flow.c", "src/ui/ui_approve_reject.c::ui_approve_reject_screens", "src/ui/ui_bip32_path.c", "src/commands/signtx/stx_ui.c", "src/ui/ui_menu.c", "src/app_main.c"]}
{"id": "C77", "title": "A request for a key or an address is granted when the user approves", "statement": "After anything that may have happened - any packets, any presses, any memory left by earlier runs - and unless the buttons do nothing any more, the device can be brought to grant a request for an extended public key or an address that is in order: presses that end what is asked, then the command, then right until Approve is displayed, then both buttons. Exactly one packet is sent from the command on: the public key and chain code of the path in the command, or the address of its path and network, with status success; for an address that is only to be displayed, an empty answer with success. Before Approve the heading, the path, the address if it is to be displayed and the application token were displayed. Only a request that carries a token may be answered without asking.", "quantifier": "every transport, left-over memory and run before the request; every path, network and token of a request in order", "why_tests_cant": "tests ask for keys and addresses on a device that has just started; that no history of commands, refusals and half-read questions takes the service away ranges over all histories and paths", "anchors": ["src/commands/extpubkey/epk_handler.c::handler_get_extended_public_key", "src/commands/extpubkey/epk_ui.c", "src/commands/deriveaddress/da_handler.c", "src/commands/deriveaddress/da_ui.c", "src/ui/ui_approve_reject.c", "src/app_main.c"]}
{"id": "C78", "title": "The device works again once system calls stop failing", "statement": "Whatever calls into the operating system - hashing, key derivation, curve arithmetic, the random rounds of a signature - failed before, at whatever points of whatever commands: once they no longer fail, the device serves as if none ever had. After the user has refused the question that may still be open, the commands for a transaction within the limits are all accepted if the user approves, and the last approval is answered with a signature of exactly that transaction; a box within the limits is attested, with frames under the same session key, so frames given out before a failure stay good.", "quantifier": "every history with failing calls, every content of the arrays on the stack, every transaction and box within the limits afterwards", "why_tests_cant": "a failure leaves half-written buffers and a command half done; that nothing of it stands in the way later ranges over all points of failure and all histories", "anchors": ["src/common/macros_ext.h", "src/commands/signtx/stx_handler.c", "src/commands/attestinput/ainpt_handler.c", "src/commands/signtx/operations/stx_op_p2pk.c", "src/ergo/schnorr.c", "src/context.c"]}
{"id": "C79", "title": "With failing system calls the buttons and the display still tell the truth", "statement": "Whatever the host sends and the user presses, and whichever calls into the operating system fail in the middle of it: at every moment the display shows what it would show on a device in which nothing fails, operated by corresponding actions - an action with a failing call has its usual effect, or is answered with one of the error codes for failing calls and then has the effect of a refused command or of Reject. A signature comes out only for both buttons on Approve with the final question displayed, after Reject or every card with all its parts was displayed. Every answer to a press is a decision on the question before the user or such an error code.", "quantifier": "every run by packets and buttons, every pattern of failing calls and content of the stack, every way the display splits texts", "why_tests_cant": "the failure may hit while a page is computed, between two presses, or in the last step of a signature; the claim ranges over all such points in all runs", "anchors": ["src/ui/ui_dynamic_flow.c", "src/ui/ui_approve_reject.c", "src/commands/signtx/stx_ui.c", "src/commands/signtx/operations/stx_op_p2pk.c", "src/ergo/schnorr.c", "src/common/macros_ext.h"]}
{"id": "C80", "title": "At the cable, a device with failing system calls looks like one without, and serves wallets afterwards", "statement": "Start the application on any memory left over, send it any packets, press any buttons, and let any calls into the operating system fail at any time. The packets sent and the display are, moment by moment, those of a run in which no call fails, except that a moment with a failing call may be answered with the error code for it; in the other run a packet is then refused, or the user goes to Reject. A packet with a signature leaves only for both buttons on Approve, with the final question of a signing session read since the command that put it. Once calls stop failing, any wallet gets its transaction signed after at most some presses, unless the buttons are dead; and failing calls never make them dead.", "quantifier": "every left-over memory, page buffer and I/O buffer, every run of packets and presses, every pattern of failing calls, every transaction a wallet then plans", "why_tests_cant": "it ranges over all runs and all points of failure in them, and over all continuations", "anchors": ["src/app_main.c", "src/common/macros_ext.h", "src/ui/ui_dynamic_flow.c", "src/commands/signtx/stx_ui.c", "src/commands/signtx/operations/stx_op_p2pk.c"]}
{"id": "C81", "title": "While system calls fail, keys and addresses still need consent, and afterwards they are given again", "statement": "Start the application on any memory left over, with any packets and presses, and let any calls into the operating system fail at any time. A packet with an extended key or an address leaves only for both buttons on Approve, on the question about it and after that was read or Reject was displayed, or at the request of an application session approved before. Once calls stop failing, a request for a key or an address that is in order is granted: after some presses, the command, and reading up to Approve, the one answer is the key or the address of the path asked for, and what the request asks for was displayed.", "quantifier": "every left-over memory, every run of packets and presses, every pattern of failing calls, every request in order", "why_tests_cant": "it ranges over all runs and all points of failure in them, and asserts that a way to the answer exists from each", "anchors": ["src/app_main.c", "src/commands/extpubkey/epk_handler.c", "src/commands/extpubkey/epk_ui.c", "src/commands/deriveaddress/da_handler.c", "src/commands/deriveaddress/da_ui.c", "src/common/macros_ext.h"]}
{"id": "C82", "title": "A failing HMAC changes the tags of frames and nothing else", "statement": "The application ignores the result of the operating system's HMAC-SHA256. Let it fail at any time, leaving any 32 bytes, and any other calls with it. Then whatever the host sends and the user presses, the device is in a state, with its display, that it also gets into while HMAC-SHA256 does not fail, by the same commands, presses and answers but for the tags of the frames given and accepted, and for frames refused. In particular a signature is still given only for both buttons on Approve, with the final question before the user and read or Reject displayed; it signs the transaction described in the session approved; and an answer to a press is a decision on the question before the user or an error code for another call that failed.", "quantifier": "every run of commands and presses, every pattern of failing calls with HMAC-SHA256 among them, every 32 bytes left by it", "why_tests_cant": "it ranges over all runs, all points of failure and all bytes a failing call can leave, and compares each with another run", "anchors": ["src/commands/attestinput/ainpt_response.c:send_response_attested_input_frame", "src/commands/signtx/stx_handler.c:handle_input_frame", "src/helpers/input_frame.h"]}
{"id": "C83", "title": "At the cable, a failing HMAC changes the tags of frames and nothing else", "statement": "Start the application on any memory left over, with any packets and presses; let the operating system's HMAC-SHA256 fail at any time, leaving any 32 bytes, and any other calls with it. The packets sent and the display are, moment by moment, those of a run in which HMAC-SHA256 does not fail, but for the tags in frames and for frames refused. A packet with a signature, a key or an address still leaves only for both buttons on Approve, on the question for it and after that was read or Reject was displayed (or, for a key or an address, at the request of an application session approved before). Once calls stop failing, the device serves any wallet and grants any request for a key or an address that is in order.", "quantifier": "every left-over memory, every run of packets and presses, every pattern of failing calls with HMAC-SHA256 among them, every 32 bytes left by it, every wallet and request afterwards", "why_tests_cant": "it ranges over all runs and all points of failure in them, and asserts that a way to a signature exists from each", "anchors": ["src/app_main.c", "src/commands/attestinput/ainpt_response.c:send_response_attested_input_frame", "src/commands/signtx/stx_handler.c:handle_input_frame", "src/common/macros_ext.h"]}
{"id": "C84", "title": "What a signature can cost, whatever calls failed", "statement": "Let calls into the operating system (all but HMAC-SHA256) fail at any time, and the local buffers hold anything. If a signature comes out, then, read off the answers and screens of that very run, it costs what the property on the cost of a signature says: under the same conditions on tags, hash and readability, the boxes spent hold what the outputs return to the wallet plus the amount and the fee on the final screen, every output to others was shown in full and approved, and the final screen lists exactly the tokens that differ, with the exact difference.", "quantifier": "every history with every pattern of failing calls and content of buffers ending in a signature, every prefix-free grammar of a node, every transaction the node reads, every set of ledger boxes", "why_tests_cant": "all histories, all points of failure in them, all transactions and all ledgers", "anchors": ["src/commands/signtx", "src/commands/attestinput", "src/ergo/tx_ser_full.c", "src/ergo/tx_ser_box.c", "src/common/macros_ext.h"]}
{"id": "C85", "title": "What a signature packet can cost, whatever calls failed and whatever memory was left over", "statement": "Start the application on any memory left over, with any packets and presses, and let calls into the operating system (all but HMAC-SHA256) fail at any time. A run seen at the cable determines what the device did in it: the commands, the answers and the screens. If a packet with a signature leaves, it costs what the property on the cost of a signature says, read off these: the boxes spent hold what returns to the wallet plus the amount and the fee on the final screen, every output to others was shown in full and approved, and the final screen lists exactly the tokens that differ, with the exact difference. An approval in such a run is a press of both buttons while the display shows Approve (or, for the question about the signing path, a text card).", "quantifier": "every left-over memory, every run of packets and presses with every pattern of failing calls ending in a packet with a signature, every prefix-free grammar of a node, every transaction the node reads, every set of ledger boxes", "why_tests_cant": "all memories, all runs, all points of failure in them, all transactions and all ledgers", "anchors": ["src/app_main.c", "src/commands/signtx", "src/commands/attestinput", "src/ergo/tx_ser_full.c", "src/ergo/tx_ser_box.c", "src/common/macros_ext.h"]}
