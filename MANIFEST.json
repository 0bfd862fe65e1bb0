{
 "claims": [
  {
   "property": "C01",
   "status": "proved",
   "theorems": [
    "C01_varint_is_compact_size",
    "C01_varint_roundtrip",
    "C01_varint_total"
   ],
   "note": "int_to_varint is exactly CompactSize; round trip with any trailing data; other integers raise OverflowError"
  },
  {
   "property": "C02",
   "status": "proved",
   "theorems": [
    "C02_exactly",
    "C02_otherwise",
    "C02_bytes_to_hex",
    "C02_hex_to_bytes",
    "C02_hex_to_bytes_rejects",
    "C02_flip"
   ],
   "note": "hex helpers against an independent definition of hexadecimal notation"
  },
  {
   "property": "C03",
   "status": "proved",
   "theorems": [
    "C03_int_to_unknown_bytes",
    "C03_negative_raises",
    "C03_hex_to_int_of_int"
   ],
   "note": "exact, minimal, both byte orders"
  },
  {
   "property": "C04",
   "status": "proved",
   "theorems": [
    "C04_chunks"
   ],
   "note": "concatenation and sizes of all chunks"
  },
  {
   "property": "C05",
   "status": "proved",
   "theorems": [
    "C05_script_push",
    "C05_script_push_rejects"
   ],
   "note": "read back by the script push rules of S_Script.v"
  },
  {
   "property": "C06",
   "status": "proved",
   "theorems": [
    "C06_encode_is_base58",
    "C06_decode_encode",
    "C06_decode_encode_zeros"
   ],
   "note": "encoder equals positional Base58; exact round trip condition"
  },
  {
   "property": "C07",
   "status": "proved",
   "theorems": [
    "C07_encode_decode",
    "C07_decode_injective",
    "C07_rejects",
    "C07_ones"
   ],
   "note": "canonical and injective; rejections"
  },
  {
   "property": "C08",
   "status": "proved",
   "theorems": [
    "C08_decode_check",
    "C08_decode_check_raises",
    "C08_roundtrip"
   ],
   "note": "for every hash function with 32-byte output"
  },
  {
   "property": "C09",
   "status": "proved",
   "theorems": [
    "C09_verify_is_bip173",
    "C09_created_checksum_exact",
    "C09_created_checksum_valid"
   ],
   "note": "against polynomial arithmetic over GF(32)"
  },
  {
   "property": "C10",
   "status": "proved",
   "theorems": [
    "C10_typos_rejected_by_decode",
    "C10_typos_rejected",
    "C10_v0_typos_rejected"
   ],
   "note": "at the level of base32.decode, get_version and address_to_scriptpubkey; distance-5 property of the BCH code over GF(1024) proved for all lengths up to 90"
  },
  {
   "property": "C11",
   "status": "proved",
   "theorems": [
    "C11_8_to_5",
    "C11_5_to_8",
    "C11_roundtrip_bytes",
    "C11_roundtrip_symbols",
    "C11_out_of_range_rejected"
   ],
   "note": "against bit strings; both directions"
  },
  {
   "property": "C12",
   "status": "proved",
   "theorems": [
    "C12_encode_iff_valid",
    "C12_valid_roundtrip",
    "C12_invalid_gives_none",
    "C12_invalid_raises",
    "C12_decode_reencodes"
   ],
   "note": "all integers as versions, all programs"
  },
  {
   "property": "C13",
   "status": "proved",
   "theorems": [
    "C13_upper_case_same",
    "C13_rejects",
    "C13_accepts_iff"
   ],
   "note": "exact characterisation of the accepted strings"
  },
  {
   "property": "C14",
   "status": "proved",
   "theorems": [
    "C14_wif_roundtrip",
    "C14_wif_format"
   ],
   "note": "all 32-byte secrets, any hash with the right output length; lengths from value ranges in base 58"
  },
  {
   "property": "C15",
   "status": "proved",
   "theorems": [
    "C15_accepts_iff",
    "C15_only_value_error",
    "C15_checksum_check_iff",
    "C15_checksum_check_total"
   ],
   "note": "exact characterisation of accepted strings (strings of 1 characters only excluded by hypothesis)"
  },
  {
   "property": "C16",
   "status": "proved",
   "theorems": [
    "C16_roundtrip",
    "C16_decompress",
    "C16_length_rejected",
    "C16_bad_prefix_refuted"
   ],
   "note": "field primality certified by Pocklington; -7 is no cube; missing prefix check stated as refuted"
  },
  {
   "property": "C17",
   "status": "proved",
   "theorems": [
    "C17_p2pkh",
    "C17_other_lengths_rejected"
   ],
   "note": "up to the excluded all-zero key hash; an address that also parses as Bech32 is rejected, never misdirected"
  },
  {
   "property": "C18",
   "status": "proved",
   "theorems": [
    "C18_nested_segwit_address",
    "C18_multisig_address",
    "C18_multisig_segwit_address",
    "C18_multisig_errors"
   ],
   "note": "nested segwit, multisig and segwit multisig addresses"
  },
  {
   "property": "C19",
   "status": "proved",
   "theorems": [
    "C19_policy",
    "C19_accepts_iff"
   ],
   "note": "parsed by script rules; exact acceptance condition"
  },
  {
   "property": "C20",
   "status": "proved",
   "theorems": [
    "C20_nonpositive_accepted_refuted",
    "C20_below_range_raises"
   ],
   "note": "finding: non-positive m accepted"
  },
  {
   "property": "C21",
   "status": "proved",
   "theorems": [
    "C21_enumeration_order",
    "C21_sorted",
    "C21_list_order",
    "C21_hex_or_bytes",
    "C21_mixed_refused",
    "C21_upper_case_refused",
    "C21_made_iff",
    "C21_policy",
    "C21_other_network",
    "C21_not_mine",
    "C21_no_list",
    "C21_no_list_how"
   ],
   "note": "Any enumeration of a set of bytes or of strings; sorted result; lists keep their order; hex and bytes forms give the same wallet; mixed sets and unrecognised (upper-case) strings are refused. C21_made_iff, C21_policy, C21_other_network, C21_not_mine and C21_no_list say exactly which wallets can be made, for m >= 1 (C20: m <= 0)."
  },
  {
   "property": "C22",
   "status": "proved",
   "theorems": [
    "C22_classification",
    "C22_otherwise_value_error"
   ],
   "note": "exact characterisation"
  },
  {
   "property": "C23",
   "status": "proved",
   "theorems": [
    "C23_standard_scripts",
    "C23_segwit_addresses",
    "C23_unrestricted_refuted",
    "C23_invalid_program_type_error"
   ],
   "note": "standard scripts for 20-byte payloads and all witness programs; unrestricted claim refuted for every hash function"
  },
  {
   "property": "C24",
   "status": "proved",
   "theorems": [
    "C24_roundtrip",
    "C24_roundtrip_no_input",
    "C24_wellformed_exist",
    "C24_reads_any"
   ],
   "note": "Round trip through to_hex/deserialize for all wire-sized transactions with an input (and without, unless there is exactly one output); amount and segwit flag, which are not on the wire, are not restored. C24_wellformed_exist shows the hypotheses cover every abstract transaction within wire limits."
  },
  {
   "property": "C25",
   "status": "proved",
   "theorems": [
    "C25_wire_format"
   ],
   "note": "Against the relational BIP144 encoder of S_Tx.v."
  },
  {
   "property": "C26",
   "status": "proved",
   "theorems": [
    "C26_txid_standard",
    "C26_witness_independent",
    "C26_known_before_signing",
    "C26_known_before_cosigning",
    "C26_unsigned",
    "C26_txid_any"
   ],
   "note": "calc_txid of the serialisation is the standard id of the abstract transaction; independence of witnesses follows from the encoding relation. C26_known_before_signing and C26_known_before_cosigning: with segwit inputs only, the id of the signed transaction is computed from the unsigned one and the public keys. C26_unsigned: it equals the id of the unsigned transaction only if two strings have the same double SHA-256; C26_signing_hypotheses shows a case where they differ."
  },
  {
   "property": "C27",
   "status": "proved",
   "theorems": [
    "C27_not_hex",
    "C27_not_hex_id",
    "C27_trailing_bytes_ignored",
    "C27_truncated_locktime",
    "C27_truncated_item",
    "C27_no_input_one_output",
    "C27_no_input_refuted"
   ],
   "note": "Positive theorems for what is accepted although malformed, plus a refutation with a concrete transaction."
  },
  {
   "property": "C28",
   "status": "proved",
   "theorems": [
    "C28_message",
    "C28_sign_tx",
    "C28_nothing_else",
    "C28_commits"
   ],
   "note": "The signer is handed SHA-256 of the SIGHASH_ALL message of an independent specification; the message determines and is determined by exactly the listed fields."
  },
  {
   "property": "C29",
   "status": "proved",
   "theorems": [
    "C29_message",
    "C29_sign_tx",
    "C29_commits",
    "C29_other_hash_types"
   ],
   "note": "BIP143 message; commitment up to SHA-256 collisions; other hash types raise ValueError."
  },
  {
   "property": "C30",
   "status": "proved",
   "theorems": [
    "C30_not_ours_multi",
    "C30_outsider",
    "C30_outsider_ok",
    "C30_outsider_text",
    "C30_frame",
    "C30_not_ours"
   ],
   "note": "For any object, wallet and unspents."
  },
  {
   "property": "C31",
   "status": "proved",
   "theorems": [
    "C31_spends",
    "C31_signs"
   ],
   "note": "Keys with 33/65-byte public keys and signatures of at most 72 bytes that verify; uniform witnesses (otherwise C66). Success of signing is a separate theorem."
  },
  {
   "property": "C32",
   "status": "proved",
   "theorems": [
    "C32_complete",
    "C32_order"
   ],
   "note": "For co-signers whose signatures are valid exactly for their own key (CoSigner) and redeem scripts no part of which is a valid signature (EnvOk), any m distinct co-signers, in any order, each reading the hex of the previous one, complete every input of the wallet; the final hex does not depend on the order."
  },
  {
   "property": "C33",
   "status": "proved",
   "theorems": [
    "C33_kept",
    "C33_any_signatures",
    "C33_refused",
    "C33_refused_any"
   ],
   "note": "C33_kept: at every stage all signatures made so far are present, valid and in key order. C33_any_signatures and C33_refused_any: one input with any table of valid signatures, whatever its history. C33_refused: after completion every wallet gets ValueError."
  },
  {
   "property": "C34",
   "status": "proved",
   "theorems": [
    "C34_witness",
    "C34_corrupt",
    "C34_legacy"
   ],
   "note": "C34_witness: for any m, any valid signatures; C34_corrupt: the hex string of a single-input transaction is no transaction. C34_legacy: legacy inputs are unharmed, completion gives the same bytes."
  },
  {
   "property": "C35",
   "status": "proved",
   "theorems": [
    "C35_books",
    "C35_books_no_match"
   ],
   "note": "For every outcome of the random choices; sizes in quarter bytes; the fee is tied to the independent size specification S_Fee.v."
  },
  {
   "property": "C36",
   "status": "proved",
   "theorems": [
    "C36_submultiset"
   ],
   "note": "Permutation of selected plus unused coins gives the input list."
  },
  {
   "property": "C37",
   "status": "proved",
   "theorems": [
    "C37_consolidate_all"
   ],
   "note": "The selection is the input list itself, in order."
  },
  {
   "property": "C38",
   "status": "proved",
   "theorems": [
    "C38_absolute_exact"
   ],
   "note": "Exact."
  },
  {
   "property": "C39",
   "status": "proved",
   "theorems": [
    "C39_sufficient_not_refused",
    "C39_consolidate_iff",
    "C39_no_coins",
    "C39_depends_on_luck"
   ],
   "note": "Also the exact condition when consolidating, the error for no coins, and a finding: below full coverage the outcome can depend on the shuffle."
  },
  {
   "property": "C40",
   "status": "proved",
   "theorems": [
    "C40_changeless_bounds"
   ],
   "note": "Both bounds, in quarter satoshis."
  },
  {
   "property": "C41",
   "status": "proved",
   "theorems": [
    "C41_match_found",
    "C41_nineteen_coins_refuted"
   ],
   "note": "Up to 18 coins; C41_nineteen_coins_refuted shows that 19 coins can exhaust the tries and be refused."
  },
  {
   "property": "C42",
   "status": "proved",
   "theorems": [
    "C42_formula",
    "C42_zero_rate",
    "C42_monotone",
    "C42_negative_counts"
   ],
   "note": "Formula, zero rate, monotonicity, negative counts."
  },
  {
   "property": "C43",
   "status": "proved",
   "theorems": [
    "C43_single",
    "C43_multi",
    "C43_fetched_single",
    "C43_fetched_multi",
    "C43_underestimated",
    "C43_default_sizes"
   ],
   "note": "For single keys and for multisignature wallets once m co-signers have signed; the sizes hypothesis is proved for fetched coins (C43_fetched_*); C43_underestimated proves the failure for mixed coins, 253 inputs and 79-80 byte messages. Signatures have at most 71 bytes plus the hash type (low-s DER)."
  },
  {
   "property": "C44",
   "status": "proved",
   "theorems": [
    "C44_outputs",
    "C44_books",
    "C44_inputs",
    "C44_succeeds"
   ],
   "note": "Payments in order, change last before the messages, coins a sub-multiset of those offered, and the books balance: selected = payments + change + fee as asked (or a changeless match). C44_succeeds: exact condition for success."
  },
  {
   "property": "C45",
   "status": "proved",
   "theorems": [
    "C45_same_network",
    "C45_change_same_network"
   ],
   "note": "Refused exactly when an address is of another network."
  },
  {
   "property": "C46",
   "status": "proved",
   "theorems": [
    "C46_payloads",
    "C46_scripts",
    "C46_constructed",
    "C46_readable_iff",
    "C46_wrong_kind"
   ],
   "note": "Payloads and scripts; finding: scripts are readable exactly when every chunk has at most 75 bytes, so chunks of 76-80 bytes are not."
  },
  {
   "property": "C47",
   "status": "proved",
   "theorems": [
    "C47_payment",
    "C47_exact"
   ],
   "note": "Payments of 0 or negative amounts raise."
  },
  {
   "property": "C48",
   "status": "proved",
   "theorems": [
    "C48_signalled",
    "C48_not_signalled"
   ],
   "note": "With the option every input signals replaceability (sequence at most 0xfffffffd); without it the sequences are those of the unspents."
  },
  {
   "property": "C49",
   "status": "proved",
   "theorems": [
    "C49_caller_list",
    "C49_overwritten_on_error"
   ],
   "note": "All failure points; includes the finding that a refused call (network mismatch) has already overwritten the list."
  },
  {
   "property": "C50",
   "status": "proved",
   "theorems": [
    "C50_new_single",
    "C50_new_multi",
    "C50_create_single",
    "C50_create_multi"
   ],
   "note": "From fetched or given coins to a signed hex string: decoded transaction, outputs, fee, change, and every input spendable (single keys) or carrying the wallet co-signer's valid signature (multisig). Coins must have 32-byte txids and distinct outpoints; scripts as fetched from the wallet addresses."
  },
  {
   "property": "C51",
   "status": "proved",
   "theorems": [
    "C51_offline",
    "C51_online",
    "C51_message_refused",
    "C51_unmarked_segwit_refuted"
   ],
   "note": "On given coins: equal strings in both directions, the signing machine contacting nobody; messages are refused; finding: segwit coins not marked as such (as fetched by prepare_transaction) are signed as legacy coins."
  },
  {
   "property": "C52",
   "status": "proved",
   "theorems": [
    "C52_dict_roundtrip",
    "C52_flags_agree",
    "C52_unknown_types"
   ],
   "note": "All histories of constructor, set_type, opt_in_for_RBF, from_dict."
  },
  {
   "property": "C53",
   "status": "proved",
   "theorems": [
    "C53_fetched",
    "C53_failed"
   ],
   "note": "Both addresses, all failure points."
  },
  {
   "property": "C54",
   "status": "proved",
   "theorems": [
    "C54_to_satoshi",
    "C54_shown",
    "C54_roundtrip"
   ],
   "note": "For every precision; amounts up to 10^prec significant digits. C54_bound shows the bound is needed."
  },
  {
   "property": "C55",
   "status": "proved",
   "theorems": [
    "C55_methods",
    "C55_supported",
    "C55_shown",
    "C55_rate",
    "C55_rate_fallback",
    "C55_to_satoshi",
    "C55_zero_rate",
    "C55_krona_refuted"
   ],
   "note": "n < 10^19 and any rate r < 10^100 (decimal division modelled digit by digit). C55_rate and C55_rate_fallback: rates from Bitpay and blockchain.info; C55_zero_rate: finding."
  },
  {
   "property": "C56",
   "status": "proved",
   "theorems": [
    "C56_small_amounts",
    "C56_without_nodes",
    "C56_balance_of_node",
    "C56_node_balance",
    "C56_refuted",
    "C56_balance_refuted"
   ],
   "note": "C56_small_amounts and C56_without_nodes give the part that holds after any history; C56_refuted and C56_balance_refuted refute the full claim; C56_balance_of_node: the precision is 9 for good after a node was asked; C56_node_balance: balances below 10 BTC are read exactly from any double within relative error 10^-15."
  },
  {
   "property": "C57",
   "status": "proved",
   "theorems": [
    "C57_fresh",
    "C57_reuse",
    "C57_units"
   ],
   "note": "Over all histories of calls (S_History) from import on, with arbitrary outside behaviour and clock."
  },
  {
   "property": "C58",
   "status": "proved",
   "theorems": [
    "C58_get_fee",
    "C58_error_status",
    "C58_fee",
    "C58_reuse"
   ],
   "note": "Over all histories of calls; exact cases."
  },
  {
   "property": "C59",
   "status": "proved",
   "theorems": [
    "C59_balance",
    "C59_transactions",
    "C59_by_id",
    "C59_unspent",
    "C59_offline",
    "C59_out_of_order_refuted",
    "C59_not_json_refuted",
    "C59_unknown_address_refuted",
    "C59_no_coins_refuted"
   ],
   "note": "Over all histories; exact (iff) characterisation of every getter: the first usable service answers, no later one is asked. Findings as _refuted theorems: Bitcore answering 5xx, answers that are no JSON, an address unknown to Blockchair, blockchain.info out of order."
  },
  {
   "property": "C60",
   "status": "proved",
   "theorems": [
    "C60_broadcast",
    "C60_offline",
    "C60_requests",
    "C60_all",
    "C60_node"
   ],
   "note": "Over all histories; exact (iff). C60_offline: without a connection ConnectionError."
  },
  {
   "property": "C61",
   "status": "proved",
   "theorems": [
    "C61_services",
    "C61_connect"
   ],
   "note": "Over all histories of calls: the services are those of the last connect_to_node for that network, else the initial ones."
  },
  {
   "property": "C62",
   "status": "proved",
   "theorems": [
    "C62_any",
    "C62_blockchair",
    "C62_blockstream",
    "C62_blockstream_excessive",
    "C62_blockstream_test",
    "C62_smartbit",
    "C62_blockchain",
    "C62_node"
   ],
   "note": "Servers are specified in S_Servers over a ledger of any size; C62_any after any history of calls without own node, with any services down. Findings: on the test network Blockstream leaves out unconfirmed transactions (C62_blockstream_test); an own node lists receiving transactions only (C62_node). Bitcore has no get_transactions. Loops are bounded by a fuel larger than the number of pages."
  },
  {
   "property": "C63",
   "status": "proved",
   "theorems": [
    "C63_arguments",
    "C63_prefix",
    "C63_counter",
    "C63_stop",
    "C63_progress",
    "C63_wraparound_refuted"
   ],
   "note": "Transition system with one step per shared-memory access, any schedule, any number of processes. C63_prefix, C63_counter (modulo 2^32, exact once all processes have ended), C63_stop, C63_progress (no deadlock, below 2^32 keys), C63_arguments. Finding: after exactly 2^32 keys the result is never shown (C63_wraparound_refuted)."
  },
  {
   "property": "C64",
   "status": "proved",
   "theorems": [
    "C64_other_key",
    "C64_pairs",
    "C64_refuted"
   ],
   "note": "The claim is refuted: C64_refuted (a concrete pair), C64_other_key (for every secret the imported key has the address only in case of a hash collision; the compressed key of the secret, importable from its hex form, does have it), C64_pairs."
  },
  {
   "property": "C65",
   "status": "proved",
   "theorems": [
    "C65_restores",
    "C65_constructor_disregards_version",
    "C65_sound"
   ],
   "note": "For coincurve behaving as EcOk says (padding, range, sizes). Also: the class constructors disregard the version in the string."
  },
  {
   "property": "C66",
   "status": "proved",
   "theorems": [
    "C66_mixed_multi",
    "C66_mixed_refuted"
   ],
   "note": "Finding: such calls return bytes that encode no transaction; for keys (any signing call that succeeds) and for the first co-signer of a multisig wallet, whose call does succeed."
  },
  {
   "property": "C67",
   "status": "proved",
   "theorems": [
    "C67_failed",
    "C67_failed_given",
    "C67_forgets",
    "C67_given"
   ],
   "note": "Finding: key.unspents afterwards holds the selected (spent) coins only. A call refused after coin selection (wrong network) also leaves the shortened list (C67_failed)."
  },
  {
   "property": "C68",
   "status": "proved",
   "theorems": [
    "C68_history",
    "C68_repeated"
   ],
   "note": "Finding: duplicates."
  },
  {
   "property": "C69",
   "status": "proved",
   "theorems": [
    "C69_equality",
    "C69_equivalence",
    "C69_rbf"
   ],
   "note": "Exact."
  },
  {
   "property": "C70",
   "status": "proved",
   "theorems": [
    "C70_roundtrips",
    "C70_equality"
   ],
   "note": "For coincurve behaving as EcOk says. DER and PEM are not modelled."
  },
  {
   "property": "C71",
   "status": "proved",
   "theorems": [
    "C71_any",
    "C71_blockchair",
    "C71_blockstream",
    "C71_bitcore",
    "C71_smartbit",
    "C71_blockchain",
    "C71_blockchain_excessive",
    "C71_node"
   ],
   "note": "Servers are specified in S_Servers; coins up to their order. Amounts must fit the precision of the decimal context (28 digits, 9 after the balance was asked from an own node: C56). blockchain.info with 1000 coins or more is not relied upon (C71_blockchain_excessive)."
  },
  {
   "property": "C72",
   "status": "proved",
   "theorems": [
    "C72_any",
    "C72_blockchair",
    "C72_blockstream",
    "C72_bitcore",
    "C72_smartbit",
    "C72_blockchain",
    "C72_node_received",
    "C72_node_refuted",
    "C72_node_digits_refuted"
   ],
   "note": "For all public services; refuted for an own node (C72_node_refuted, C72_node_digits_refuted); C72_node_received says what a node does report."
  },
  {
   "property": "C73",
   "status": "proved",
   "theorems": [
    "C73_send",
    "C73_failed"
   ],
   "note": "C73_send and C73_failed, under the hypotheses of C50_create_single. IdOf is the standard definition of a transaction id, independent of calc_txid; C26_txid_any and C24_reads_any say that every standard encoding, made by anyone, is read."
  },
  {
   "property": "C74",
   "status": "proved",
   "theorems": [
    "C74_unspents",
    "C74_balance"
   ],
   "note": "M_app instantiates the world of the wallet by the models of bit.network. Servers as in C71 (S_Servers). The amounts must fit the decimal context (28 digits, or 9: C56)."
  },
  {
   "property": "C75",
   "status": "proved",
   "theorems": [
    "C75_send",
    "C75_multi"
   ],
   "note": "Composition of C73, C74, C60 (C50 for multisig). KeyOk/EnvOk are the assumptions on the signature library, SF that random.shuffle permutes; ids of coins are 32 bytes and no outpoint is listed twice (GoodIds)."
  },
  {
   "property": "C76",
   "status": "proved",
   "theorems": [
    "C76_histories",
    "C76_settings"
   ],
   "note": "Method lists the methods that reach the network. Direct calls include the passing of time and changes outside."
  },
  {
   "property": "C77",
   "status": "proved",
   "theorems": [
    "C77_any",
    "C77_node_unknown"
   ],
   "note": "ServesRaw describes truthful answers, known or unknown. C77_node_unknown is a finding: a node makes the call raise instead of returning None."
  },
  {
   "property": "C78",
   "status": "proved",
   "theorems": [
    "C78_calls",
    "C78_wallets",
    "C78_apart",
    "C78_elsewhere"
   ],
   "note": "The outside is instrumented with a log of the URLs asked and the answers. Links of Smartbit pages are followed wherever they lead; this is part of the statement. C78_apart and C78_elsewhere: the endpoints of the networks, and those for rates and fees, are disjoint."
  },
  {
   "property": "C79",
   "status": "proved",
   "theorems": [
    "C79_single",
    "C79_multi",
    "C79_refuses"
   ],
   "note": "S_Consensus specifies a script interpreter with P2SH and witness rules and when a transaction is valid against a ledger; it is stricter than the network where simpler. C79_refuses shows that the rules refuse. Size limits are not part of it."
  },
  {
   "property": "C80",
   "status": "proved",
   "theorems": [
    "C80_effect"
   ],
   "note": "For any ledger that has the coins; entries under the new id itself are excepted (a collision of transaction ids)."
  },
  {
   "property": "C81",
   "status": "proved",
   "theorems": [
    "C81_change",
    "C81_refuted"
   ],
   "note": "C81_change says what the code does, C81_refuted that the property does not hold."
  },
  {
   "property": "C82",
   "status": "proved",
   "theorems": [
    "C82_single",
    "C82_multi",
    "C82_send"
   ],
   "note": "Affordable lists what a request must satisfy. OwnAddresses: the own addresses are recognized as such (a Base58 address that happens to be a valid Bech32 string would be refused)."
  },
  {
   "property": "C83",
   "status": "proved",
   "theorems": [
    "C83_point",
    "C83_same_point",
    "C83_signatures",
    "C83_pub_hex"
   ],
   "note": "HasPoint: the library gives a SEC1 encoding of a point of the curve; the keys of the tests of bit meet it (X_vectors)."
  },
  {
   "property": "C84",
   "status": "proved",
   "theorems": [
    "C84_equal_iff",
    "C84_read_iff",
    "C84_reread_differs_refuted"
   ],
   "note": "C84_reread_differs_refuted is the finding."
  },
  {
   "property": "C85",
   "status": "proved",
   "theorems": [
    "C85_balance",
    "C85_transactions",
    "C85_by_id",
    "C85_unspent",
    "C85_any_balance",
    "C85_any_transactions",
    "C85_any_by_id",
    "C85_any_unspent",
    "C85_no_transactions",
    "C85_no_transaction",
    "C85_no_coins",
    "C85_node",
    "C85_refused_refuted",
    "C85_refused_history_refuted",
    "C85_later_page_refuted"
   ],
   "note": "C85_refused_refuted, C85_refused_history_refuted and C85_later_page_refuted are findings. Bitcore balances: C59_out_of_order_refuted."
  },
  {
   "property": "C86",
   "status": "proved",
   "theorems": [
    "C86_asked",
    "C86_addresses",
    "C86_unspents",
    "C86_transactions",
    "C86_create",
    "C86_send",
    "C86_sign",
    "C86_balance",
    "C86_network"
   ],
   "note": "By a library for curve operations that ignores the secret and makes no keys. to_wif, to_hex and sign of a key object are not covered: they show or use the secret by purpose."
  },
  {
   "property": "C87",
   "status": "proved",
   "theorems": [
    "C87_send",
    "C87_multi"
   ],
   "note": "S_After says what an address holds after a transaction. The services of the later time are another outside (record), so that they may answer differently. For multisig the two scripts of the wallet must differ (a hash collision otherwise)."
  },
  {
   "property": "C88",
   "status": "proved",
   "theorems": [
    "C88_send",
    "C88_multi"
   ],
   "note": "Admits: the service takes every transaction that is Valid (S_Consensus) over the chain, with which the ledgers of the services agree (OnChain). Useless: out of order or refusing. Recommended fees and amounts in fiat currency are not part of the statement (they are in C82); the precision is that of the decimal context."
  },
  {
   "property": "C89",
   "status": "proved",
   "theorems": [
    "C89_room",
    "C89_many_coins",
    "C89_poor",
    "C89_refuted",
    "C89_either",
    "C89_create",
    "C89_create_room",
    "C89_send",
    "C89_send_room",
    "C89_prepare",
    "C89_create_many"
   ],
   "note": "M_depth models the search with a bounded stack; C89_room ties it to select_coins. Finding (C89_refuted): with 1000 coins of 100000 satoshis a payment of 1000000 can fail with RecursionError. The wallet methods with the limit (P_limit): C89_create, C89_send and C89_prepare say that they do the same or fail harmlessly, so that the theorems about what they return hold with the limit too; C89_create_many that a call that would succeed fails for some random bits."
  },
  {
   "property": "C90",
   "status": "proved",
   "theorems": [
    "C90_new",
    "C90_wif",
    "C90_sound",
    "C90_refused",
    "C90_empty_refuted",
    "C90_der_pem",
    "C90_der_sound",
    "C90_repr",
    "C90_repr_no_secret",
    "C90_multi_repr",
    "C90_multi_repr_no_secret"
   ],
   "note": "DER and PEM are coincurve functions (record Coder, with a round-trip law as hypothesis). Findings: Key(\"\") makes a new random key (C90_empty_refuted); an uncompressed key read back from DER or PEM has another address (C90_der_pem, C90_lost)."
  },
  {
   "property": "C91",
   "status": "proved",
   "theorems": [
    "C91_services",
    "C91_untimed",
    "C91_wallets",
    "C91_given",
    "C91_create_refuted",
    "C91_silent"
   ],
   "note": "Requests are noted with their time-outs by a wrapper around the outside world (S_Timeout); a clock bounds the wait (C91_silent). Requests to the pages that an answer links to are included. Finding (C91_untimed, C91_create_refuted): rates.py, fees.py and RPC requests have no time-out."
  },
  {
   "property": "C92",
   "status": "proved",
   "theorems": [
    "C92_excess_multi",
    "C92_single",
    "C92_multi",
    "C92_excess",
    "C92_refuted"
   ],
   "note": "Bound: a signature for the one message is not good for the other (the two messages that differ in the amount; a law for all messages would be false of any hash). That payees are paid is part of Asked. Finding (C92_excess, C92_refuted): a service that understates a legacy coin makes the wallet pay the rest as fee."
  },
  {
   "property": "C93",
   "status": "proved",
   "theorems": [
    "C93_reads",
    "C93_amount",
    "C93_refuses",
    "C93_only",
    "C93_create"
   ],
   "note": "Digits and white space of other scripts (from U+0660 on) and exponents of more than 18 digits are outside the model of Decimal(). Exact conversion: the digits fit the precision and the exponent is between -100000 and 100000."
  },
  {
   "property": "C94",
   "status": "proved",
   "theorems": [
    "C94_send",
    "C94_multi"
   ],
   "note": "NewId: no coin known before is of a transaction with the id of the new one (a hash collision otherwise). S_After says what an address holds after a transaction. Finding: coins spent a moment ago are offered again until the services know."
  },
  {
   "property": "C95",
   "status": "proved",
   "theorems": [
    "C95_replaces",
    "C95_multi",
    "C95_absolute",
    "C95_given",
    "C95_refuted"
   ],
   "note": "Replaces (S_Replace): BIP 125 with an incremental rate of one satoshi per byte, without the limit on descendants. At a rate: coins all segwit or all legacy (sizes of mixed ones are underestimated, C43). Finding (C95_refuted, C95_twice): a second payment at a higher fee can be independent of the first."
  },
  {
   "property": "C96",
   "status": "proved",
   "theorems": [
    "C96_single",
    "C96_multi",
    "C96_dust",
    "C96_long_message",
    "C96_heavy"
   ],
   "note": "Standard (S_Standard): the policy of Bitcoin Core before version 30, with default settings; outputs to bare keys and bare multisig left out. Findings, each with a case: C96_dust, C96_long_message, C96_heavy."
  },
  {
   "property": "C97",
   "status": "proved",
   "theorems": [
    "C97_coins",
    "C97_history",
    "C97_by_id",
    "C97_balance"
   ],
   "note": "S_Answers: Walk follows names in JSON; CoinSaid, TxidSaid, RawSaid say in which fields. The log of answers is that of C78. Amounts are converted by the public function currency_to_satoshi (exactness: C54)."
  },
  {
   "property": "C98",
   "status": "proved",
   "theorems": [
    "C98_balance",
    "C98_node",
    "C98_smartbit_unmentioned",
    "C98_height",
    "C98_raw",
    "C98_unknown_currency",
    "C98_rate",
    "C98_none",
    "C98_none_segwit"
   ],
   "note": "C98_smartbit_unmentioned is a finding: an answer without the list counts as an empty list. Values of an unexpected kind at the end of the path are stored unseen by the code; the model raises TypeError there and nothing is claimed."
  },
  {
   "property": "C99",
   "status": "proved",
   "theorems": [
    "C99_unspents",
    "C99_history",
    "C99_spent_single",
    "C99_spent_multi"
   ],
   "note": "C99_spent_*: for well-formed distinct ids and scripts of the wallet (anything else cannot be signed, or is signed for nothing); what the services may get wrong about the amounts is C92."
  },
  {
   "property": "C100",
   "status": "proved",
   "theorems": [
    "C100_writes",
    "C100_refused",
    "C100_reads"
   ],
   "note": "That a search ends is C63_progress; which key the WIF stands for is C64. Arguments that click itself refuses are left out."
  },
  {
   "property": "C101",
   "status": "proved",
   "theorems": [
    "C101_tells_apart",
    "C101_shows_in",
    "C101_shows_out",
    "C101_shows",
    "C101_shows_coin",
    "C101_coin",
    "C101_coin_refuted",
    "C101_in_refuted",
    "C101_out_refuted"
   ],
   "note": "S_Repr says which texts are expressions for which values, and how a call gives values to parameters. C101_coin_refuted, C101_in_refuted and C101_out_refuted are findings. Characters above 126 in a str are shown as they are (hexadecimal strings have none)."
  },
  {
   "property": "C102",
   "status": "proved",
   "theorems": [
    "C102_dumps",
    "C102_payload"
   ],
   "note": "S_Json is the grammar of RFC 8259 without fractions and exponents. Surrogates as characters are left out: two of them are written like the character they stand for. C55_methods (C55) spells out the methods for the currencies."
  },
  {
   "property": "C103",
   "status": "proved",
   "theorems": [
    "C103_one_value",
    "C103_exactly",
    "C103_says_one",
    "C103_signs",
    "C103_reformatted",
    "C103_prepared_says",
    "C103_loads",
    "C103_sign",
    "C103_transaction",
    "C103_offline",
    "C103_printable",
    "C103_injective",
    "C103_accepts",
    "C103_refuses",
    "C103_says"
   ],
   "note": "M_loads models json.loads with bytes of every text (strings, numbers, nesting, repeated names); float() of numbers that do not count in quarters is a parameter (class Floats). In C103_offline messages are left out: prepare_transaction with a message raises TypeError (C51). Fields of the wrong JSON kind (a text for an amount, say) raise TypeError in the model at once; the code may not look at them."
  },
  {
   "property": "C104",
   "status": "proved",
   "theorems": [
    "C104_balance",
    "C104_transactions",
    "C104_coins",
    "C104_by_id",
    "C104_refused",
    "C104_broadcast",
    "C104_bitcore_broadcast",
    "C104_bitcore_refuted"
   ],
   "note": "str.format is modelled for the fields {} only. Finding: C104_bitcore_refuted."
  },
  {
   "property": "C105",
   "status": "proved",
   "theorems": [
    "C105_reads",
    "C105_refuses",
    "C105_writes",
    "C105_back",
    "C105_negative_refuted",
    "C105_plain",
    "C105_bytes"
   ],
   "note": "int16 (M_hexint) is the complete hex_to_int; M_utils.hex_to_int, for plain digits only, agrees with it (C105_plain). Finding: C105_negative_refuted."
  },
  {
   "property": "C106",
   "status": "proved",
   "theorems": [
    "C106_read",
    "C106_said",
    "C106_alike",
    "C106_refused",
    "C106_serves",
    "C106_transaction",
    "C106_unspents",
    "C106_history",
    "C106_balance",
    "C106_by_id"
   ],
   "note": "Sends (S_Reply): what is sent is a text of the grammar S_Loads for the value. Requests that fail, and replies whose content is no JSON, are passed through as they are."
  },
  {
   "property": "C107",
   "status": "proved",
   "theorems": [
    "C107_amount",
    "C107_any",
    "C107_float",
    "C107_coins",
    "C107_received",
    "C107_insight",
    "C107_rate",
    "C107_cached",
    "C107_send"
   ],
   "note": "FloatOf (S_Float) says what float(), repr() and Decimal() do: nearest double, as few digits as possible, exact value. That Python does so is assumed of the parameter Floats, not proved. The amount of a payment reaches the model as the text repr() gives."
  },
  {
   "property": "C108",
   "status": "proved",
   "theorems": [
    "C108_single",
    "C108_multi"
   ],
   "note": "For fees per byte (absolute_fee is C38). l is a lower bound of the lengths of the signatures of the keys, on which the bound depends; sizes are those the wallet gives its coins, as in C43."
  },
  {
   "property": "C109",
   "status": "proved",
   "theorems": [
    "C109_method",
    "C109_program",
    "C109_objects",
    "C109_balance_as_refuted"
   ],
   "note": "Caches of rates and fees, the settings and the services belong to the world, which is shared. C109_balance_as_refuted: balance_as of two objects of one key differs."
  },
  {
   "property": "C110",
   "status": "proved",
   "theorems": [
    "C110_create",
    "C110_send",
    "C110_changes",
    "C110_get",
    "C110_marked",
    "C110_sticky",
    "C110_plain_refuted",
    "C110_returned_refuted",
    "C110_prepare",
    "C110_prepare_changes",
    "C110_prepare_marked",
    "C110_prepare_sticky",
    "C110_sign",
    "C110_allocated"
   ],
   "note": "Blind: random.shuffle does not look at the elements and loses none. prepare_transaction and sign_transaction, which make new coins, are not in the model with references. C110_plain_refuted and C110_returned_refuted are findings."
  },
  {
   "property": "C111",
   "status": "proved",
   "theorems": [
    "C111_prepared",
    "C111_why",
    "C111_multi",
    "C111_send",
    "C111_insufficient",
    "C111_no_coins",
    "C111_no_change_address",
    "C111_prepare",
    "C111_prepare_no_message",
    "C111_sign_prepared",
    "C111_sign_written",
    "C111_sign_text",
    "C111_sign_unreachable",
    "C111_sign_means"
   ],
   "note": "For wallets of one key and of co-signers; that the wallet has its addresses (OwnAddresses) is a hypothesis, and for co-signers also that there is an address for the change. C111_no_change_address shows what happens otherwise."
  },
  {
   "property": "C112",
   "status": "proved",
   "theorems": [
    "C112_bitcore_unspent",
    "C112_smartbit_transactions",
    "C112_smartbit_unspent",
    "C112_smartbit_nothing",
    "C112_blockchair_transactions",
    "C112_blockchair_unspent",
    "C112_blockchain_transactions",
    "C112_blockstream_transactions",
    "C112_empty_page_refuted"
   ],
   "note": "Blockstream: fewer than 50 transactions in the mempool. C112_empty_page_refuted is a finding."
  },
  {
   "property": "C113",
   "status": "proved",
   "theorems": [
    "C113_one_reading",
    "C113_node",
    "C113_distinct",
    "C113_slash",
    "C113_colon",
    "C113_any_login_refuted",
    "C113_percent_refuted"
   ],
   "note": "How URLs are read is specified (login up to the last at sign, port after the last colon, authority up to / ? or #, escapes of ASCII characters taken back), as urllib3 and requests do it. C113_slash, C113_colon, C113_any_login_refuted and C113_percent_refuted are findings. That requests go to the URL and nowhere else is C78."
  }
 ]
}