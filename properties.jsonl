{"id": "C01", "title": "CompactSize integers round-trip", "statement": "For every integer v with 0 <= v < 2^64 and every following data r, reading a variable-length integer from int_to_varint(v) + r returns exactly (v, r); the encoding has the shortest of the lengths 1/3/5/9 defined by the Bitcoin wire format; any other integer raises OverflowError.", "quantifier": "all integers v, all trailing byte strings r", "why_tests_cant": "The domain is 2^64 values times arbitrary trailing data; boundaries 0xfc/0xfd, 2^16, 2^32 and 2^64 need all-quantified reasoning.", "anchors": ["bit/utils.py:int_to_varint", "bit/utils.py:read_var_int", "bit/utils.py:read_as_int"]}
{"id": "C02", "title": "Hex helpers are lossless", "statement": "hex_to_bytes(bytes_to_hex(b)) == b for every byte string; for every string of hex digits h, bytes_to_hex(hex_to_bytes(h)) is h in lower case (with one leading 0 added when the length is odd); a string containing any character that is neither a hex digit nor whitespace raises ValueError; with whitespace, exactly the texts of bytes of two adjacent digits each are taken, after a 0 has been put in front of an odd number of characters; flip_hex_byte_order reverses the byte order of an even-length hex string and is its own inverse up to case.", "quantifier": "all byte strings and all strings", "why_tests_cant": "Unbounded set of strings, including odd lengths, mixed case and foreign characters.", "anchors": ["bit/utils.py:bytes_to_hex", "bit/utils.py:hex_to_bytes", "bit/utils.py:flip_hex_byte_order"]}
{"id": "C03", "title": "Integer-to-bytes conversion is exact and minimal", "statement": "For every non-negative integer n, int_to_unknown_bytes(n) in either byte order decodes to n, and it is the shortest non-empty byte string that does; every negative integer raises OverflowError. int_to_hex/hex_to_int are inverse on non-negative integers.", "quantifier": "all integers", "why_tests_cant": "Unbounded integers.", "anchors": ["bit/utils.py:int_to_unknown_bytes", "bit/utils.py:int_to_hex", "bit/utils.py:hex_to_int"]}
{"id": "C04", "title": "Chunking neither loses nor reorders data", "statement": "For every sequence and every positive size, the chunks produced by chunk_data concatenate to the input, none is empty, none is longer than size, and all but the last have exactly that size.", "quantifier": "all sequences, all sizes >= 1", "why_tests_cant": "Unbounded length.", "anchors": ["bit/utils.py:chunk_data"]}
{"id": "C05", "title": "Script pushes are read back by a script interpreter as exactly the data", "statement": "For every data string d shorter than 2^32 bytes, an interpreter following Bitcoin script push rules, run on script_push(len(d)) + d + rest, reads one push of exactly d and continues at rest.", "quantifier": "all byte strings d and rest", "why_tests_cant": "Opcode boundaries 75/76, 255/256, 65535/65536 and arbitrary content.", "anchors": ["bit/utils.py:script_push"]}
{"id": "C06", "title": "Base58 decode inverts encode, exactly when the input has a nonzero byte", "statement": "b58decode(b58encode(b)) == b for every byte string b that contains at least one nonzero byte; for the remaining inputs (empty or all zero) the result always has exactly one zero byte too many.", "quantifier": "all byte strings", "why_tests_cant": "Leading zero handling interacts with big-integer conversion for every length.", "anchors": ["bit/base58.py:b58encode", "bit/base58.py:b58decode"]}
{"id": "C07", "title": "Base58 decoding is canonical", "statement": "For every string s over the Base58 alphabet with a character other than 1, b58encode(b58decode(s)) == s, hence two different such strings never decode to the same bytes; every string with a character outside the alphabet raises ValueError.", "quantifier": "all strings", "why_tests_cant": "Unbounded set of strings.", "anchors": ["bit/base58.py:b58encode", "bit/base58.py:b58decode"]}
{"id": "C08", "title": "Base58Check accepts exactly the strings with a correct checksum", "statement": "b58decode_check(s) returns v iff b58decode(s) is v followed by the first four bytes of the double SHA-256 of v; otherwise it raises ValueError. b58decode_check(b58encode_check(v)) == v whenever v or its checksum contains a nonzero byte.", "quantifier": "all strings, all byte strings, all hash functions with 32-byte outputs", "why_tests_cant": "Every payload and every corrupted variant.", "anchors": ["bit/base58.py:b58encode_check", "bit/base58.py:b58decode_check"]}
{"id": "C09", "title": "Bech32 checksums follow BIP173", "statement": "The Bech32 checksum test accepts exactly the symbol sequences whose polynomial over GF(32) leaves remainder 1 modulo the BIP173 generator; for every human readable part and data the appended six symbols make that true and are the only six symbols that do.", "quantifier": "all human readable parts, all symbol sequences", "why_tests_cant": "The code space is infinite; the bit tricks of the implementation must agree with field arithmetic for every state.", "anchors": ["bit/base32.py:bech32_polymod", "bit/base32.py:bech32_verify_checksum", "bit/base32.py:bech32_create_checksum"]}
{"id": "C10", "title": "Up to four typos in a Bech32 address are always caught", "statement": "If a segwit address of at most 90 characters is valid, then every string obtained from it by changing one to four characters of the data part (to any other characters, other than changing only case) is rejected by get_version / address_to_scriptpubkey with ValueError, unless the mistyped string happens to be a valid Base58Check string with an address version byte (the code falls back to Base58 when Bech32 decoding fails). For version 0 addresses (P2WPKH, P2WSH) that exception is impossible whatever the hash function, except for 62-character strings starting with a lower-case b.", "quantifier": "all valid addresses, all sets of 1..4 positions, all replacement characters", "why_tests_cant": "About 10^11 error patterns per address, for every address.", "anchors": ["bit/base32.py:bech32_decode", "bit/base32.py:decode", "bit/format.py:get_version", "bit/transaction.py:address_to_scriptpubkey"]}
{"id": "C11", "title": "Regrouping bits is lossless", "statement": "Regrouping any byte string from 8 to 5 bits with padding and back without padding returns the same bytes; going from 5 to 8 bits without padding succeeds exactly when fewer than five padding bits remain and they are all zero, and then regrouping back returns the original symbols.", "quantifier": "all byte strings, all 5-bit sequences", "why_tests_cant": "Accumulator invariants over unbounded input.", "anchors": ["bit/base32.py:convertbits"]}
{"id": "C12", "title": "Segwit addresses round-trip, for valid witness programs and only those", "statement": "For hrp in bc/tb/bcrt and every witness version/program allowed by BIP173, encode yields a string that decode maps back to exactly that version and program; for every other version/program encode never returns an address (it returns None, or raises for versions outside -32..31 and for programs that are not bytes); every address accepted by decode re-encodes to its lower-case form.", "quantifier": "all hrps of the three networks, all versions, all programs, all strings", "why_tests_cant": "All programs of all lengths.", "anchors": ["bit/base32.py:encode", "bit/base32.py:decode"]}
{"id": "C13", "title": "Bech32 decoding ignores case but rejects mixed case", "statement": "Decoding the upper-case form of a lower-case address gives the same result as the address itself; strings mixing upper and lower case letters, longer than 90 characters, with characters outside 33..126, without separator, or with fewer than six checksum symbols are rejected.", "quantifier": "all strings", "why_tests_cant": "Unbounded set of malformed strings.", "anchors": ["bit/base32.py:bech32_decode"]}
{"id": "C14", "title": "WIF export and import are inverse", "statement": "For every 32-byte secret, both networks and both compression flags, wif_to_bytes(bytes_to_wif(secret, version, compressed)) returns the secret, the compression flag and the network name; a WIF is 52 characters long exactly when compressed and 51 otherwise.", "quantifier": "all 32-byte secrets, versions, flags", "why_tests_cant": "2^256 secrets; compression detection depends on the Base58 length, which must be settled for all of them.", "anchors": ["bit/format.py:bytes_to_wif", "bit/format.py:wif_to_bytes"]}
{"id": "C15", "title": "WIF import rejects corrupted and foreign strings", "statement": "wif_to_bytes returns only if the string decodes to version byte 0x80 or 0xef, a payload and a matching checksum; wif_checksum_check is True iff the Base58Check checksum matches and the version byte is 0x80 or 0xef, and False otherwise; neither raises anything but ValueError.", "quantifier": "all strings", "why_tests_cant": "All strings.", "anchors": ["bit/format.py:wif_to_bytes", "bit/format.py:wif_checksum_check"]}
{"id": "C16", "title": "Compressed and uncompressed public keys describe the same point", "statement": "For every point on secp256k1, public_key_to_coords inverts coords_to_public_key in both formats; for every compressed key whose x is on the curve, the recovered y satisfies the curve equation, lies in 0..p-1 and has the parity given by the lowest bit of the prefix; lengths other than 33 and 65 raise ValueError. The prefix byte itself is not checked.", "quantifier": "all points of the curve, all 33- and 65-byte strings", "why_tests_cant": "The curve has about 2^256 points; correctness of the square root needs primality of the field modulus.", "anchors": ["bit/format.py:public_key_to_coords", "bit/format.py:coords_to_public_key", "bit/curve.py:x_to_y"]}
{"id": "C17", "title": "P2PKH addresses pay to the hash of the public key", "statement": "For every 33- or 65-byte public key and both networks, public_key_to_address gives a Base58Check string whose payload is the network byte and the HASH160 of the key; address_to_scriptpubkey on it gives OP_DUP OP_HASH160 <hash160> OP_EQUALVERIFY OP_CHECKSIG. Other lengths raise ValueError.", "quantifier": "all public keys, both networks, all hash functions with the right output lengths", "why_tests_cant": "All keys.", "anchors": ["bit/format.py:public_key_to_address", "bit/transaction.py:address_to_scriptpubkey"]}
{"id": "C18", "title": "Nested segwit and multisig addresses pay to the hash of the right script", "statement": "public_key_to_segwit_address, multisig_to_address and multisig_to_segwit_address give Base58Check strings of the network P2SH byte and HASH160 of, respectively, 0014<hash160(pubkey)>, the redeem script, and 0020<sha256(redeem script)>; address_to_scriptpubkey gives OP_HASH160 <that hash> OP_EQUAL.", "quantifier": "all keys, all key lists, all m, both networks", "why_tests_cant": "All keys and scripts.", "anchors": ["bit/format.py:public_key_to_segwit_address", "bit/format.py:multisig_to_address", "bit/format.py:multisig_to_segwit_address", "bit/format.py:segwit_scriptpubkey"]}
{"id": "C19", "title": "Redeem scripts encode the m-of-n policy", "statement": "When multisig_to_redeemscript succeeds with 1 <= m, parsing the script by Bitcoin rules gives back OP_m, exactly the given keys in the given order, OP_n and OP_CHECKMULTISIG with m <= n <= 15 and script length <= 520; keys with length other than 33/65, m > n and oversized scripts raise ValueError.", "quantifier": "all key lists, all m", "why_tests_cant": "All list lengths and all keys.", "anchors": ["bit/format.py:multisig_to_redeemscript"]}
{"id": "C20", "title": "Non-positive m is not rejected", "statement": "A user relies on multisig construction refusing meaningless policies. The code does not: for every -80 <= m <= 0 it returns a script whose first byte is not a number opcode OP_1..OP_16 and which is no m-of-n script for any m (for m = -80 it is a zero-of-n policy); below -80 it raises OverflowError.", "quantifier": "all m <= 0", "why_tests_cant": "Needs a statement about all integers m.", "anchors": ["bit/format.py:multisig_to_redeemscript", "bit/wallet.py:MultiSig.__init__"]}
{"id": "C21", "title": "Multisig wallets given as sets do not depend on iteration order", "statement": "For key sets (of bytes, or of lower-case hex strings) the public key order, redeem script and address are the same for every iteration order, and hex and bytes forms give the same wallet. A wallet is made exactly if the key is of the class's network and listed (as bytes or in lower-case hex) in a list or set, and the policy is one that fits a P2SH script; its script is the one of the policy. A key of the other network raises TypeError, a key that is not listed ValueError (the documentation says TypeError).", "quantifier": "all finite sets of keys, all enumeration orders", "why_tests_cant": "Python set order varies from run to run.", "anchors": ["bit/wallet.py:MultiSig.__init__"]}
{"id": "C22", "title": "Addresses are classified to the right network or rejected", "statement": "get_version returns main exactly for valid-checksum strings with version byte 00/05 or hrp bc, test exactly for 6f/c4 or tb/bcrt, and raises ValueError for all others.", "quantifier": "all strings", "why_tests_cant": "All strings.", "anchors": ["bit/format.py:get_version"]}
{"id": "C23", "title": "Accepted addresses yield standard output scripts", "statement": "For every address that address_to_scriptpubkey accepts whose payload has the standard length the result is one of the standard scripts (P2PKH, P2SH, witness program) for its payload. The unrestricted claim is false: payload lengths of Base58 addresses are not checked.", "quantifier": "all strings", "why_tests_cant": "All strings including adversarial ones.", "anchors": ["bit/transaction.py:address_to_scriptpubkey", "bit/format.py:segwit_scriptpubkey"]}
{"id": "C24", "title": "Transactions survive serialisation", "statement": "For every transaction with at least one input, wire-sized fields (32-byte txids, 4-byte indexes, sequences, version and locktime, 8-byte amounts) and well-formed witnesses, deserialize(tx.to_hex()) has the same version, inputs (outpoints, scripts, sequences, witnesses), outputs and locktime, in the same order.", "quantifier": "all such transactions, any number and size of inputs, outputs, scripts and witnesses", "why_tests_cant": "Unbounded structures.", "anchors": ["bit/transaction.py:deserialize", "bit/transaction.py:TxObj", "bit/transaction.py:TxIn", "bit/transaction.py:TxOut"]}
{"id": "C25", "title": "Serialisation is the Bitcoin wire format", "statement": "The bytes of a transaction equal an independently written encoder of the BIP144 format: version, marker and flag only when some input has witness data or is segwit, CompactSize counts, inputs, outputs, witnesses, locktime.", "quantifier": "all transactions", "why_tests_cant": "Unbounded structures.", "anchors": ["bit/transaction.py:TxObj.__bytes__", "bit/transaction.py:TxIn.__bytes__", "bit/transaction.py:TxOut.__bytes__"]}
{"id": "C26", "title": "Transaction ids do not depend on witnesses", "statement": "For every well-formed transaction calc_txid(tx.to_hex()) is the byte-reversed double SHA-256 of the serialisation without witnesses; two transactions that differ only in witnesses have the same id. If all inputs are segwit, the id of the signed transaction is known before signing: it is fixed by the unsigned transaction and the public keys and does not depend on the signatures, nor on which co-signers have signed so far. It is not the id of the unsigned transaction, whose input scripts are still empty.", "quantifier": "all well-formed transactions, all witness contents", "why_tests_cant": "Unbounded structures.", "anchors": ["bit/transaction.py:calc_txid", "bit/transaction.py:TxObj.legacy_repr"]}
{"id": "C27", "title": "Deserialisation is not strict", "statement": "A user may rely on malformed raw transactions being rejected. They are not always: for every well-formed transaction any trailing bytes are ignored, and cutting any part of the lock time is accepted silently; a non-segwit transaction with no inputs and one output is taken for segwit. Texts that are not hexadecimal are never read: bytes with blanks between them give AttributeError, all others ValueError.", "quantifier": "all well-formed transactions, all suffixes", "why_tests_cant": "Unbounded structures.", "anchors": ["bit/transaction.py:deserialize", "bit/utils.py:read_bytes"]}
{"id": "C28", "title": "Legacy signatures commit to exactly the standard SIGHASH_ALL message", "statement": "For every transaction and every legacy input, the hash handed to the signer equals the SHA-256 of the transaction with every input script blanked except the signed one (its script code), followed by the hash type; it depends on all outpoints, sequences, outputs, version and locktime and on nothing else.", "quantifier": "all transactions, all input positions", "why_tests_cant": "Unbounded structures.", "anchors": ["bit/transaction.py:calculate_preimages", "bit/transaction.py:sign_tx"]}
{"id": "C29", "title": "Segwit signatures commit to exactly the BIP143 message", "statement": "For every transaction and every segwit input with a known amount, the hash handed to the signer equals the SHA-256 of the BIP143 preimage, in particular it commits to the spent amount. Any hash type other than SIGHASH_ALL raises ValueError.", "quantifier": "all transactions, all input positions, amounts and script codes", "why_tests_cant": "Unbounded structures.", "anchors": ["bit/transaction.py:calculate_preimages", "bit/transaction.py:sign_tx"]}
{"id": "C30", "title": "Signing changes nothing but the signed inputs", "statement": "sign_tx never changes version, locktime, number, order or content of outputs, number and order of inputs, outpoints or sequences; an input not spending one of the given unspents the key can sign keeps its script and (non-empty) witness. A wallet, of one key or of co-signers, that owns none of the coins returns the transaction as it was, without an error, also where the transaction is given and returned as a text.", "quantifier": "all transactions, all keys, all unspent lists", "why_tests_cant": "All combinations of matching and non-matching inputs.", "anchors": ["bit/transaction.py:sign_tx"]}
{"id": "C31", "title": "Signed single-key inputs spend their outputs", "statement": "After signing, every matching P2PKH input carries <signature> <public key> and every matching nested segwit input carries the P2SH push of 0014<hash160> and the witness <signature> <public key>, where the signature is over the standard message for this very transaction.", "quantifier": "all transactions, keys and matching unspents", "why_tests_cant": "All transactions.", "anchors": ["bit/transaction.py:sign_tx"]}
{"id": "C32", "title": "Multisig: any m distinct co-signers in any order complete the input", "statement": "For every m-of-n multisig input and every sequence of m distinct co-signers signing one after the other (with serialisation in between), the final input is accepted by the OP_CHECKMULTISIG rules: it is OP_0, m signatures in key order, redeem script, each valid for its key; the result does not depend on the signing order.", "quantifier": "all m, n, all key lists, all signing orders, legacy and segwit", "why_tests_cant": "Number of orders grows factorially; signatures must be re-read from the partially signed script each time.", "anchors": ["bit/transaction.py:sign_tx", "bit/utils.py:get_signatures_from_script"]}
{"id": "C33", "title": "Multisig: a further signature after completion is refused, none is lost before", "statement": "While fewer than m valid signatures are present, every signature already present is kept by a further signing; when m valid signatures are present, sign_tx raises ValueError.", "quantifier": "all signing histories", "why_tests_cant": "All histories.", "anchors": ["bit/transaction.py:sign_tx"]}
{"id": "C34", "title": "Multisig: signing twice with the same key corrupts a segwit input", "statement": "A user expects that signing again with the same key is harmless. For segwit multisig inputs with m >= 2 the second signing yields a witness that declares one more item than it contains.", "quantifier": "all m >= 2, all transactions", "why_tests_cant": "Needs the history sign; sign for all transactions.", "anchors": ["bit/transaction.py:sign_tx"]}
{"id": "C35", "title": "Coin selection balances the books", "statement": "Whenever select_coins returns without a changeless match, the selected amounts equal target plus the estimated fee for the selected inputs plus the returned remainder, and the remainder is at least min_change.", "quantifier": "all unspent lists, targets, fees, output sizes, random choices", "why_tests_cant": "Randomised algorithm over unbounded lists.", "anchors": ["bit/transaction.py:select_coins"]}
{"id": "C36", "title": "Coin selection never invents or duplicates coins", "statement": "For every outcome of the random choices, the selected coins form a sub-multiset of the given unspents.", "quantifier": "all unspent lists, all random choices", "why_tests_cant": "Randomised.", "anchors": ["bit/transaction.py:select_coins"]}
{"id": "C37", "title": "Consolidation uses every coin", "statement": "With consolidate=True the selected coins are a permutation of all given unspents.", "quantifier": "all unspent lists, all shuffles", "why_tests_cant": "Randomised.", "anchors": ["bit/transaction.py:select_coins"]}
{"id": "C38", "title": "Absolute fees are exact", "statement": "With absolute_fee=True the selected amounts equal target + fee + remainder exactly.", "quantifier": "all unspent lists, targets, fees, shuffles", "why_tests_cant": "Randomised.", "anchors": ["bit/transaction.py:select_coins"]}
{"id": "C39", "title": "Funds that suffice are never refused", "statement": "If all coins together cover target, fee for spending all of them and min_change, select_coins never raises InsufficientFunds; with consolidate=True it raises exactly when they do not.", "quantifier": "all unspent lists, targets, fees, random choices", "why_tests_cant": "Randomised.", "anchors": ["bit/transaction.py:select_coins"]}
{"id": "C40", "title": "A changeless match overpays by at most the cost of a change output", "statement": "When the branch-and-bound search selects the coins, the remainder is 0 and the paid fee lies between fee*(input sizes + output sizes without change + 9) and that plus fee*182.", "quantifier": "all unspent lists, targets, fees, random choices", "why_tests_cant": "Randomised search with budget.", "anchors": ["bit/transaction.py:select_coins"]}
{"id": "C41", "title": "Branch and bound finds a changeless match whenever one exists", "statement": "For up to 18 coins each worth spending at the given fee rate and a positive target, if some subset gives a changeless match then select_coins returns one, whatever the random choices.", "quantifier": "all lists of up to 18 coins, all random choices", "why_tests_cant": "2^18 subsets times random orders.", "anchors": ["bit/transaction.py:select_coins"]}
{"id": "C42", "title": "Estimated fee formula", "statement": "estimate_tx_fee is fee rate times the rounded-up sum of input, output and overhead virtual sizes; it is monotone in inputs and outputs, and zero when the rate is zero.", "quantifier": "all sizes, counts, rates", "why_tests_cant": "Unbounded integers, half-byte rounding.", "anchors": ["bit/transaction.py:estimate_tx_fee"]}
{"id": "C43", "title": "The fee paid covers the real size", "statement": "A transaction created at f satoshi per byte pays at least f times its virtual size (BIP 141) when the coins are of one kind (all segwit or all not), the sizes are those the wallet gives its coins, the signatures have at most 72 bytes, there are at most 252 inputs and outputs and a message has at most 78 bytes. When branch and bound finds a changeless match the fee may lack the rate for one more byte and the segwit marker. It is false in general: messages of 79 or 80 bytes, mixed inputs (three legacy ones beside a segwit one) and 253 inputs or more are underestimated.", "quantifier": "all keys, multisignature wallets, outputs, options, coins", "why_tests_cant": "Unbounded many transactions; whether a transaction confirms depends on bytes that are only known after signing.", "anchors": ["bit/transaction.py:estimate_tx_fee", "bit/transaction.py:sanitize_tx_data", "bit/wallet.py:PrivateKey.get_unspents", "bit/wallet.py:MultiSig.get_unspents"]}
{"id": "C44", "title": "Built transactions pay exactly what was asked", "statement": "When sanitize_tx_data succeeds, the outputs are the requested (address, satoshi amount) pairs in order, followed by the change (if any) to the leftover address, followed by the message chunks; inputs equal outputs plus fee.", "quantifier": "all outputs lists, messages, unspents, random choices", "why_tests_cant": "Unbounded.", "anchors": ["bit/transaction.py:sanitize_tx_data", "bit/transaction.py:construct_outputs"]}
{"id": "C45", "title": "No cross-network payments", "statement": "When sanitize_tx_data succeeds, every destination including change is an address of the requested network.", "quantifier": "all outputs, versions", "why_tests_cant": "All address lists.", "anchors": ["bit/transaction.py:sanitize_tx_data", "bit/format.py:get_version"]}
{"id": "C46", "title": "Messages can be recovered from the chain", "statement": "The payloads of the message outputs concatenate to the message, and for chunks of up to 75 bytes each script reads by script rules as OP_RETURN and one push of the chunk. For chunks of 76..80 bytes this fails.", "quantifier": "all messages", "why_tests_cant": "All lengths and contents.", "anchors": ["bit/transaction.py:sanitize_tx_data", "bit/transaction.py:construct_outputs"]}
{"id": "C47", "title": "Outputs of zero or negative value are refused, not mis-encoded", "statement": "construct_outputs never emits a wrong amount: positive amounts up to 2^64-1 are encoded exactly, negative and larger ones raise OverflowError and a zero amount to an address raises TypeError.", "quantifier": "all output lists", "why_tests_cant": "All integers.", "anchors": ["bit/transaction.py:construct_outputs"]}
{"id": "C48", "title": "Replace-by-fee signalling", "statement": "With replace_by_fee every input of the result has sequence at most 0xfffffffd, sequences already lower are unchanged, and without it no sequence changes.", "quantifier": "all unspent lists", "why_tests_cant": "All lists and sequences.", "anchors": ["bit/transaction.py:sanitize_tx_data", "bit/network/meta.py:Unspent.opt_in_for_RBF"]}
{"id": "C49", "title": "Caller-supplied lists", "statement": "sanitize_tx_data overwrites the caller's list of unspents with the selected coins (even when it then raises because of a network mismatch); when it raises earlier the list is unchanged.", "quantifier": "all calls, all failure points", "why_tests_cant": "All failure points.", "anchors": ["bit/transaction.py:sanitize_tx_data"]}
{"id": "C50", "title": "create_transaction end to end", "statement": "When create_transaction succeeds, the resulting hex string deserialises to a transaction whose inputs are exactly the outpoints of the selected unspents and whose outputs pay exactly the sanitised outputs.", "quantifier": "all wallets, unspents, outputs", "why_tests_cant": "Composition of all parts for every input.", "anchors": ["bit/wallet.py:PrivateKey.create_transaction", "bit/transaction.py:create_new_transaction"]}
{"id": "C51", "title": "Offline signing equals online creation", "statement": "Signing the data of prepare_transaction with the same key yields the same transaction as create_transaction on the same unspents, outputs and random choices; preparing with a message always fails.", "quantifier": "all wallets, unspents, outputs", "why_tests_cant": "All data through JSON.", "anchors": ["bit/wallet.py:PrivateKey.prepare_transaction", "bit/wallet.py:PrivateKey.sign_transaction"]}
{"id": "C52", "title": "Unspents survive conversion to a dictionary", "statement": "For every unspent reachable through the public operations, from_dict(to_dict(u)) equals u in every field; the segwit flag always agrees with the type and the size is never zero.", "quantifier": "all histories of constructor, set_type, opt_in_for_RBF", "why_tests_cant": "All histories.", "anchors": ["bit/network/meta.py:Unspent"]}
{"id": "C53", "title": "Balances are the sum of the fetched unspents", "statement": "After get_unspents the balance is the sum of the amounts of the key's unspents, legacy ones first; if a network call fails midway the balance is unchanged while unspents may already hold only the legacy ones.", "quantifier": "all service responses, all failure points", "why_tests_cant": "Crash points.", "anchors": ["bit/wallet.py:PrivateKey.get_unspents", "bit/wallet.py:MultiSig.get_unspents"]}
{"id": "C54", "title": "Unit conversion is exact", "statement": "For the units satoshi, ubtc, mbtc and btc, an amount in words of at most as many significant digits as the decimal precision (28; 9 once a node was asked for a balance) is converted to exactly its satoshi value, fractions truncated towards zero; the printed form of a satoshi amount is its shortest decimal notation, without exponent; printing and reading back gives the same amount.", "quantifier": "all amounts", "why_tests_cant": "Unbounded amounts, decimal rounding.", "anchors": ["bit/network/rates.py:currency_to_satoshi", "bit/network/rates.py:satoshi_to_currency"]}
{"id": "C55", "title": "Fiat display is rounded down", "statement": "satoshi_to_currency with a positive integer rate r prints the largest multiple of the currency's smallest unit not exceeding n/r, in shortest notation; the rate is the truncated quotient of 10^8 by the quoted price, from the first service that answers; a price above 10^8 gives rate zero, which makes displaying raise.", "quantifier": "all amounts, rates", "why_tests_cant": "Double rounding through the 28 digit context.", "anchors": ["bit/network/rates.py:satoshi_to_currency"]}
{"id": "C56", "title": "Asking a node for a balance changes later conversions", "statement": "Amount conversion should not depend on which calls were made before. It does: after RPCHost.get_balance the decimal precision is 9 digits, amounts of more than 9 significant digits are converted wrongly and displaying them in btc raises.", "quantifier": "all histories of calls", "why_tests_cant": "History dependence through global state.", "anchors": ["bit/network/services.py:RPCHost.get_balance", "bit/network/rates.py:currency_to_satoshi"]}
{"id": "C57", "title": "Cached exchange rates are fresh", "statement": "currency_to_satoshi_cached uses a rate fetched at most the cache time ago (as set last with set_rate_cache_time, one minute at first) for this very currency, or fetches; a failing fetch raises and leaves the cache unchanged; currencies do not influence each other.", "quantifier": "all histories of calls, clock values and service outcomes", "why_tests_cant": "Histories.", "anchors": ["bit/network/rates.py:currency_to_satoshi_local_cache"]}
{"id": "C58", "title": "Cached fees fall back safely", "statement": "get_fee_cached returns a fee fetched at most the cache time ago (as set last with set_fee_cache_time, ten minutes at first), or a newly fetched one; if the service is unreachable the last fetched one, or the default if none was ever fetched; fast and hour fees are independent. get_fee asks at every call, remembers nothing and returns exactly the number the answer names for the wanted speed; unlike get_fee_cached it also takes a number from an answer of error status, and it has no default.", "quantifier": "all histories of calls, clock values and service outcomes", "why_tests_cant": "Histories.", "anchors": ["bit/network/fees.py:get_fee_local_cache", "bit/network/fees.py:get_fee"]}
{"id": "C59", "title": "Failover returns the first working service", "statement": "A NetworkAPI getter returns the result of the first service in order that does not fail with an ignored error, calls no later service, and raises ConnectionError exactly when all fail that way; any other error propagates at once.", "quantifier": "all lists of services and outcomes", "why_tests_cant": "All combinations of outcomes.", "anchors": ["bit/network/services.py:NetworkAPI.get_balance", "bit/network/services.py:NetworkAPI.get_unspent", "bit/network/services.py:NetworkAPI.get_transactions"]}
{"id": "C60", "title": "Broadcast stops at the first success", "statement": "broadcast_tx submits to services in order, stops at the first that reports success, and raises ConnectionError exactly when none does. Each service is sent the transaction in one request, at its own address for the network and in the form it documents; only status 200 (for a node: no error) counts as success.", "quantifier": "all lists of services and outcomes", "why_tests_cant": "All combinations of outcomes.", "anchors": ["bit/network/services.py:NetworkAPI.broadcast_tx"]}
{"id": "C61", "title": "Connecting to a node affects one network", "statement": "connect_to_node makes the node the only service for its network for every getter and the broadcast, and leaves the other network's services unchanged. The node is asked at the address made of the given scheme, user, password, host, port and path.", "quantifier": "all histories of connect calls", "why_tests_cant": "Histories.", "anchors": ["bit/network/services.py:NetworkAPI.connect_to_node"]}
{"id": "C62", "title": "Paged downloads are complete", "statement": "Against a server that serves consistent pages, the paged get_transactions loops return every transaction exactly once in order and terminate.", "quantifier": "all transaction counts and page sizes", "why_tests_cant": "Unbounded number of pages.", "anchors": ["bit/network/services.py:BlockchairAPI.get_transactions", "bit/network/services.py:BlockchainAPI.get_transactions", "bit/network/services.py:BlockstreamAPI.get_transactions", "bit/network/services.py:BitcoreAPI.get_transactions", "bit/network/services.py:SmartbitAPI.get_transactions"]}
{"id": "C63", "title": "Vanity addresses match the prefix in every schedule", "statement": "In every interleaving of the worker processes every pair that is returned has an address starting with the requested prefix (with a leading 1 added if missing), and the attempts counter equals the number of keys tried.", "quantifier": "all interleavings, all numbers of workers", "why_tests_cant": "Concurrency.", "anchors": ["bit/keygen.py:generate_matching_address", "bit/keygen.py:generate_key_address_pair"]}
{"id": "C64", "title": "The key returned by the vanity generator does not own the returned address", "statement": "A user relies on the returned WIF belonging to the returned address. The WIF is exported uncompressed whereas the address belongs to the compressed key.", "quantifier": "all generated keys", "why_tests_cant": "All keys.", "anchors": ["bit/keygen.py:generate_key_address_pair", "bit/wallet.py:wif_to_key"]}
{"id": "C65", "title": "wif_to_key restores the wallet", "statement": "For every secret, network and compression flag, wif_to_key(key.to_wif()) gives a key of the same class with the same secret and the same public key.", "quantifier": "all keys", "why_tests_cant": "All keys.", "anchors": ["bit/wallet.py:wif_to_key", "bit/wallet.py:PrivateKey.to_wif"]}
{"id": "C66", "title": "Signing a transaction without witnesses as segwit in some inputs only", "statement": "A user expects sign_transaction to return a transaction whatever mix of inputs it spends. If the transaction was given without witnesses and some but not all inputs are signed as segwit, the result is not the encoding of any transaction.", "quantifier": "all such transactions, keys and unspents", "why_tests_cant": "Needs a proof that no decoding exists.", "anchors": ["bit/transaction.py:sign_tx", "bit/transaction.py:TxObj.__bytes__"]}
{"id": "C67", "title": "What create_transaction leaves in the wallet", "statement": "A user relies on key.unspents and key.balance describing the same coins. After create_transaction without explicit unspents, key.unspents holds only the coins that were selected while the balance still counts all fetched coins; with explicit unspents the key's attributes are unchanged and the caller's list holds the selected coins. The same holds when create_transaction raises after fetching: the balance counts all fetched coins and the list holds all of them or, if coin selection had already succeeded, only the selected ones; with explicit unspents only the caller's list can have been cut down.", "quantifier": "all wallets, worlds, outputs", "why_tests_cant": "State after any call.", "anchors": ["bit/wallet.py:PrivateKey.create_transaction", "bit/transaction.py:sanitize_tx_data"]}
{"id": "C68", "title": "Transaction history", "statement": "get_transactions returns and stores the history of the legacy address followed by that of the segwit address, and leaves unspents and balance alone; a transaction that touches both addresses is listed twice.", "quantifier": "all wallets and service responses", "why_tests_cant": "All responses.", "anchors": ["bit/wallet.py:PrivateKey.get_transactions", "bit/wallet.py:MultiSig.get_transactions"]}
{"id": "C69", "title": "Unspent equality", "statement": "Two unspents are equal exactly if amount, script, txid, output index, segwit marker and sequence agree; confirmations, type and size do not matter. It is an equivalence. Opting in to replace-by-fee makes an unspent unequal to its former self exactly if its sequence did not yet signal.", "quantifier": "all unspents", "why_tests_cant": "All pairs.", "anchors": ["bit/network/meta.py:Unspent.__eq__", "bit/network/meta.py:Unspent.opt_in_for_RBF"]}
{"id": "C70", "title": "Key export forms and equality of keys", "statement": "For every key, importing what to_hex, to_bytes or to_int export gives the compressed key of the same secret. Two keys are equal exactly if their secrets are, so keys of different networks or compression, hence with different addresses, compare equal.", "quantifier": "all valid secrets, networks, compression flags", "why_tests_cant": "All secrets.", "anchors": ["bit/wallet.py:PrivateKey.from_hex", "bit/wallet.py:PrivateKey.from_int", "bit/wallet.py:BaseKey.__eq__"]}
{"id": "C71", "title": "Coins do not depend on the service", "statement": "Whichever service answers, if every service that is not down knows the same coins of an address, get_unspent returns exactly these coins: amount, confirmations, script, txid and output index of each, none missing and none twice, over any number of pages, in whatever notation the service writes amounts.", "quantifier": "all ledgers, all histories of calls, all subsets of services that are down, all page sizes", "why_tests_cant": "Unbounded ledgers and pages; agreement of six parsers of remote answers.", "anchors": ["bit/network/services.py:NetworkAPI.get_unspent", "bit/network/services.py:BlockchairAPI.get_unspent", "bit/network/services.py:BlockstreamAPI.get_unspent", "bit/network/services.py:BitcoreAPI.get_unspent", "bit/network/services.py:SmartbitAPI.get_unspent", "bit/network/services.py:BlockchainAPI.get_unspent", "bit/network/services.py:RPCHost.get_unspent"]}
{"id": "C72", "title": "The balance is the sum of the coins", "statement": "get_balance(address) is the sum of the amounts that get_unspent(address) returns, whichever service answers. This fails for an own node, which reports all that was ever received, and rounds it from ten bitcoins on.", "quantifier": "all ledgers, all histories of calls, all subsets of services that are down", "why_tests_cant": "Relates answers of two remote calls.", "anchors": ["bit/network/services.py:NetworkAPI.get_balance", "bit/network/services.py:RPCHost.get_balance"]}
{"id": "C73", "title": "send broadcasts exactly what it reports", "statement": "A successful send broadcasts, once, after everything else and on the key's own network, exactly the transaction that create_transaction makes, which pays what was asked and spends the key's coins, and returns the id the network gives this transaction. If it raises, either nothing was broadcast or the broadcast itself raised: a transaction that was accepted is never reported as failed.", "quantifier": "all keys, payments, options, worlds", "why_tests_cant": "Relates the id returned to bytes handed to a remote service, for all transactions.", "anchors": ["bit/wallet.py:PrivateKey.send", "bit/wallet.py:PrivateKeyTestnet.send", "bit/transaction.py:calc_txid"]}
{"id": "C74", "title": "A wallet sees its coins and its balance through any service", "statement": "Whichever of the reachable services answer, in any state that calls of the library lead to, get_unspents of a key or multisig wallet returns exactly the coins of its legacy address followed by those of its segwit address, each with the type that makes it spendable, and get_balance shows their exact sum in any unit.", "quantifier": "all keys and wallets, ledgers, histories of calls, subsets of services that are down", "why_tests_cant": "Composition of wallet, failover, parsers, caches and decimal arithmetic.", "anchors": ["bit/wallet.py:PrivateKey.get_unspents", "bit/wallet.py:PrivateKey.get_balance", "bit/wallet.py:MultiSig.get_unspents", "bit/wallet.py:MultiSig.get_balance"]}
{"id": "C75", "title": "Sending from the ledger to the network", "statement": "If the services know the coins of a key, a successful send without explicit unspents spends only these coins, with valid signatures, pays what was asked, is accepted byte for byte by a service of the key's own network, and the id returned is its id; likewise for a multisig transaction once enough co-signers have signed.", "quantifier": "all keys, ledgers, payments, options, histories of calls, services", "why_tests_cant": "End to end composition of everything.", "anchors": ["bit/wallet.py:PrivateKey.send", "bit/wallet.py:MultiSig.create_transaction", "bit/network/services.py:NetworkAPI.broadcast_tx"]}
{"id": "C76", "title": "Using wallets does not change settings", "statement": "Methods of keys and wallets never change which services are asked, the precision of decimal arithmetic, how long rates and fees are kept or how long services are waited for; every state reached by direct calls and wallet methods is one that direct calls lead to, with the same connections to nodes, so what holds after any such history holds for wallets.", "quantifier": "all histories of calls and wallet methods", "why_tests_cant": "Histories over global state.", "anchors": ["bit/wallet.py:PrivateKey", "bit/wallet.py:MultiSig", "bit/network/services.py:NetworkAPI"]}
{"id": "C77", "title": "A transaction by its id, whichever service answers", "statement": "If every service either cannot be used or answers truthfully, get_transaction_by_id returns the raw transaction, or None if it is unknown, whichever service it is that answers, and ConnectionError only if none does. A node that does not know the transaction makes it raise BitcoinNodeException instead of returning None.", "quantifier": "all histories, ids, transactions, combinations of services that are down", "why_tests_cant": "All combinations of failures and histories.", "anchors": ["bit/network/services.py:NetworkAPI.get_transaction_by_id", "bit/network/services.py:BlockchairAPI.get_transaction_by_id", "bit/network/services.py:BlockstreamAPI.get_transaction_by_id", "bit/network/services.py:SmartbitAPI.get_transaction_by_id", "bit/network/services.py:BlockchainAPI.get_transaction_by_id", "bit/network/services.py:RPCHost.get_transaction_by_id"]}
{"id": "C78", "title": "Requests stay on their network", "statement": "After connect_to_node every request about the network goes to that node and nowhere else. Without it, every request goes to an endpoint of a public service for that network, or to the next page that the answer before linked to. Keys and wallets moreover ask for fees and exchange rates only. No endpoint of one network is an endpoint of the other.", "quantifier": "all histories, addresses, answers of servers, methods of keys and wallets", "why_tests_cant": "Every request in every execution, against any servers.", "anchors": ["bit/network/services.py:NetworkAPI", "bit/wallet.py:PrivateKey", "bit/wallet.py:PrivateKeyTestnet", "bit/wallet.py:MultiSig", "bit/network/rates.py:RatesAPI", "bit/network/fees.py:get_fee_cached"]}
{"id": "C79", "title": "Created transactions are valid on the chain", "statement": "If the coins are on the chain as described and the fee is not negative, the transaction that create_transaction makes (for a multisig wallet: completed by as many co-signers as needed) satisfies the consensus rules: it spends different unspent outputs, every input script and witness makes the script of its output succeed (P2PKH, P2SH multisig, nested P2WPKH and P2WSH), outputs hold no more than inputs, and it is final.", "quantifier": "all keys, wallets, coins, payments, random choices", "why_tests_cant": "All inputs; needs a script interpreter as specification.", "anchors": ["bit/wallet.py:PrivateKey.create_transaction", "bit/wallet.py:MultiSig.create_transaction", "bit/transaction.py:create_new_transaction", "bit/transaction.py:sign_tx"]}
{"id": "C80", "title": "Effect of a confirmed transaction", "statement": "Once a created transaction is confirmed, each payee has an output of exactly the amount asked for under the script of the given address, the change is under the change address, the coins selected are gone, the others are untouched, and what the spent coins held is payments plus change plus fee.", "quantifier": "all ledgers, coins, payments", "why_tests_cant": "All ledgers.", "anchors": ["bit/wallet.py:PrivateKey.create_transaction", "bit/transaction.py:sanitize_tx_data", "bit/transaction.py:construct_outputs"]}
{"id": "C81", "title": "Change is never dust", "statement": "A user relies on created transactions being relayed. Change below the dust limit makes nodes refuse them, and create_transaction does not avoid it: when coins are combined, whatever they hold beyond payments and fee becomes change, were it one satoshi.", "quantifier": "all coins, payments, fees", "why_tests_cant": "All amounts.", "anchors": ["bit/wallet.py:PrivateKey.create_transaction", "bit/transaction.py:select_coins", "bit/transaction.py:sanitize_tx_data"]}
{"id": "C82", "title": "Requests one can afford go through", "statement": "If the coins cover the payments and the fee for spending all of them at the given (or recommended) rate, every address is one of the wallet's network, amounts are positive, and the message is text or bytes, create_transaction returns a transaction, co-signers can complete a multisig one, and send succeeds if a service accepts it: nothing else makes it raise.", "quantifier": "all keys, wallets, coins, payments, options, random choices", "why_tests_cant": "Absence of exceptions on all inputs.", "anchors": ["bit/wallet.py:PrivateKey.create_transaction", "bit/wallet.py:MultiSig.create_transaction", "bit/wallet.py:PrivateKey.send", "bit/transaction.py:sanitize_tx_data", "bit/transaction.py:create_new_transaction"]}
{"id": "C83", "title": "Keys sign messages and know their point", "statement": "What a key signs is verified by it and by every key equal to it, whatever network or compression, and such keys make the same signatures. The public point of a key is the point its public key encodes, compressed or not, lies on the curve, and encodes back to the public key.", "quantifier": "all keys, messages, points", "why_tests_cant": "All keys and messages.", "anchors": ["bit/wallet.py:BaseKey.sign", "bit/wallet.py:BaseKey.verify", "bit/wallet.py:BaseKey.public_point", "bit/format.py:point_to_public_key"]}
{"id": "C84", "title": "Equality of transactions", "statement": "Two transactions read from their encodings are equal exactly if the encodings are. A user may also expect a transaction to equal what is read back from its own encoding; it does not if an input carries its amount or a segwit mark, as inputs of new transactions do.", "quantifier": "all transactions", "why_tests_cant": "All pairs of transactions.", "anchors": ["bit/transaction.py:TxObj.__eq__", "bit/transaction.py:TxIn.__eq__", "bit/transaction.py:TxOut.__eq__", "bit/transaction.py:deserialize"]}
{"id": "C85", "title": "Services that refuse", "statement": "An answer of a service other than success is passed over, and the next service asked, except for the answers by which the service says that it knows no transaction, no coins or no such transaction. So with any mixture of services out of order and working ones, balances, coins, transactions and raw transactions are those that the working ones know. A user may expect that a refusal is never taken for the absence of coins or transactions; on Blockstream's answer 400 to busy addresses it is.", "quantifier": "all services, statuses, histories of calls", "why_tests_cant": "Unit tests skip the error branches (pragma: no cover).", "anchors": ["bit/network/services.py:BlockchairAPI", "bit/network/services.py:BlockstreamAPI", "bit/network/services.py:SmartbitAPI", "bit/network/services.py:BlockchainAPI", "bit/network/services.py:BitcoreAPI", "bit/network/services.py:RPCMethod.__call__", "bit/network/services.py:NetworkAPI"]}
{"id": "C86", "title": "The secret of a key is only used to sign", "statement": "Methods of a wallet use the secret of its key for nothing but signatures: with a device that signs in place of the secret, and a key object without secret, addresses, coins, balances, histories, created, signed and sent transactions and all requests are the same. What the device is asked to sign are only the standard messages of the inputs that spend coins of the key.", "quantifier": "all keys, wallets, methods, worlds, signing devices", "why_tests_cant": "Tests cannot show that a value is not used otherwise.", "anchors": ["bit/wallet.py:PrivateKey.create_transaction", "bit/wallet.py:PrivateKey.send", "bit/wallet.py:PrivateKey.sign_transaction", "bit/wallet.py:PrivateKey.get_unspents", "bit/wallet.py:MultiSig.create_transaction", "bit/wallet.py:MultiSig.sign_transaction", "bit/transaction.py:sign_tx", "bit/transaction.py:create_new_transaction"]}
{"id": "C87", "title": "The balance after a payment", "statement": "After a successful send, once the services know of the transaction, the wallet shows the coins it did not use and the change, and its balance has gone down by exactly what was paid to other addresses plus the fee; likewise for a multisig transaction that was completed.", "quantifier": "all keys, wallets, services, ledgers, payments, options; any later state of the network", "why_tests_cant": "Needs the whole way from the ledger through selection, signing and broadcast back to the ledger.", "anchors": ["bit/wallet.py:PrivateKey.send", "bit/wallet.py:PrivateKey.get_unspents", "bit/wallet.py:PrivateKey.get_balance", "bit/wallet.py:MultiSig.create_transaction", "bit/wallet.py:MultiSig.get_unspents", "bit/transaction.py:sanitize_tx_data", "bit/network/services.py:NetworkAPI.get_unspent"]}
{"id": "C88", "title": "Payments go through", "statement": "If the services that answer about the coins of a key know what is unspent, if at least one service that takes transactions works and takes every transaction that the rules of the network allow (the others may be out of order or refuse everything), and if the coins hold the payments, given as decimal numbers in units of bitcoin, and the fee for spending all coins, then send succeeds: it returns the id of a valid transaction that the service took. A multisig wallet with enough co-signers gets as far: the transaction is made, completed and taken.", "quantifier": "all keys, wallets, ledgers, services, payments in units, options, histories of calls", "why_tests_cant": "End to end over coins, amounts, fees, scripts, signatures and services: a test shows one case with one service.", "anchors": ["bit/wallet.py:PrivateKey.send", "bit/wallet.py:MultiSig.create_transaction", "bit/transaction.py:sanitize_tx_data", "bit/transaction.py:create_new_transaction", "bit/network/services.py:NetworkAPI.broadcast_tx", "bit/network/rates.py:currency_to_satoshi_cached"]}
{"id": "C89", "title": "Many coins", "statement": "Coin selection works for any number of coins: as long as Python's recursion limit leaves room for one call more than there are coins, or when the fee is absolute or all coins are combined, the limit plays no role. A user may expect this of wallets with more coins too; from about 1000 coins on, sending any amount at a fee rate may fail with RecursionError, depending on random bits, however much the coins hold, and always does if they hold too little. Apart from this exception the limit changes nothing: create_transaction, send and prepare_transaction do exactly what they would do without it, or raise RecursionError with nothing broadcast and the lists of coins as they were.", "quantifier": "all coins, targets, rates, random bits, limits, keys, wallets, options", "why_tests_cant": "The random bits decide and a thousand coins are needed; tests use a handful.", "anchors": ["bit/transaction.py:select_coins", "bit/transaction.py:sanitize_tx_data", "bit/wallet.py:PrivateKey.create_transaction", "bit/wallet.py:PrivateKey.send", "bit/wallet.py:PrivateKey.prepare_transaction"]}
{"id": "C90", "title": "Making, storing and showing keys", "statement": "A key made without an argument holds the freshly drawn secret, is compressed and belongs to the class; writing it as WIF, DER, PEM, hex, bytes or a number and reading it back gives the same key. A constructor never replaces a key it is given by a random one and refuses what is no key. A key is shown by its class and address, nothing of the secret. Two surprises: the empty string is taken as no key and gives a new random wallet, and DER and PEM forget that a key is uncompressed, so that the key read back has another address.", "quantifier": "all secrets, classes, arguments, encodings", "why_tests_cant": "Constructors are tested with a few stored keys; random keys, falsy arguments and uncompressed keys in DER are not.", "anchors": ["bit/wallet.py:BaseKey.__init__", "bit/wallet.py:PrivateKey.from_der", "bit/wallet.py:PrivateKey.from_pem", "bit/wallet.py:PrivateKey.__repr__"]}
{"id": "C91", "title": "Waiting for services", "statement": "set_service_timeout holds from then on, whatever else is called: every request to a public service carries the time-out set last (ten seconds at first), so that if none of them answers, asking for a balance, coins, transactions or a broadcast raises ConnectionError after at most that time for each service. A wallet method that is given a fee and amounts in units of bitcoin makes no request without it, unless a node was connected. A user may expect this of every request; those for exchange rates, for the recommended fee and to a node carry no time-out, so create_transaction without a fee may wait for ever.", "quantifier": "all histories, time-outs, answers, methods of keys and wallets", "why_tests_cant": "Every request in every execution; tests do not run against services that hang.", "anchors": ["bit/network/services.py:set_service_timeout", "bit/network/services.py:NetworkAPI", "bit/network/services.py:RPCMethod.__call__", "bit/network/rates.py:RatesAPI", "bit/network/fees.py:get_fee", "bit/wallet.py:PrivateKey.create_transaction"]}
{"id": "C92", "title": "What services can lie about", "statement": "Whatever the services say about coins, a created transaction pays the payees what was asked. If it can be confirmed at all, the segwit coins it spends hold exactly what the services said, for their amounts are signed; so if all are segwit, the fee is the one that was asked for. A user may expect this of all coins. Amounts of legacy coins are not signed: if they hold more than the services say, the transaction is valid all the same and everything beyond goes to the miners.", "quantifier": "all keys, wallets, coins, payments, ledgers; signatures bind the messages signed", "why_tests_cant": "Quantifies over every ledger on which the transaction might be confirmed.", "anchors": ["bit/wallet.py:PrivateKey.create_transaction", "bit/wallet.py:MultiSig.create_transaction", "bit/transaction.py:sign_tx", "bit/transaction.py:calculate_preimages", "bit/transaction.py:sanitize_tx_data"]}
{"id": "C93", "title": "Which texts are amounts", "statement": "A text is taken for an amount if and only if it is an optional sign, digits with at most one point and at least one digit, and an optional exponent (e or E, sign, digits), with any white space around and any underscores within; its value is then the number so written. In units of bitcoin it is converted exactly (fractions of a satoshi cut off). Any other text (a comma for a point, spaces between digits, hexadecimal, NaN, Infinity, nothing) gives no amount in any currency, and no transaction is made from it.", "quantifier": "all texts of characters below U+0660, all currencies, units, precisions, payments", "why_tests_cant": "The texts are infinitely many; a lenient parser differs from this one on texts that nobody thought of testing.", "anchors": ["bit/network/rates.py:currency_to_satoshi", "bit/network/rates.py:currency_to_satoshi_cached", "bit/utils.py:Decimal", "bit/transaction.py:sanitize_tx_data", "bit/wallet.py:PrivateKey.create_transaction"]}
{"id": "C94", "title": "Payments one after the other", "statement": "Once the services know of a payment, any later payment of the same key or wallet spends none of its coins, so that both can be confirmed. As long as they do not know of it the library has no memory of what it spent: a second payment may spend the same coins, and does if either of the two consolidates, so that one of them is void.", "quantifier": "all keys, wallets, payments, options, services; any later state of the network", "why_tests_cant": "Two whole sends and everything the services may say in between.", "anchors": ["bit/wallet.py:PrivateKey.send", "bit/wallet.py:PrivateKey.create_transaction", "bit/wallet.py:MultiSig.create_transaction", "bit/wallet.py:PrivateKey.get_unspents"]}
{"id": "C95", "title": "Replacing a payment by one with a higher fee", "statement": "A payment made with replace_by_fee and all coins combined is replaced, by the rules of BIP 125, by the same payment made again from the same coins at a higher rate (or with an absolute fee higher by the price of its size): it announces that it may be replaced, the new one spends its coins and no others and pays for its own size on top. Whatever the options, a second call that is given the list of coins as the first call left it spends coins of the first transaction only, so that one of the two is void. A user may expect that asking again with a higher fee always replaces; unless coins are combined, other coins may be chosen, both transactions are valid and the payee is paid twice.", "quantifier": "all keys, wallets, coins, payments, messages, rates, random choices", "why_tests_cant": "Compares two runs for all coins and rates.", "anchors": ["bit/wallet.py:PrivateKey.create_transaction", "bit/wallet.py:MultiSig.create_transaction", "bit/transaction.py:sanitize_tx_data", "bit/network/meta.py:Unspent.opt_in_for_RBF"]}
{"id": "C96", "title": "Created transactions are passed on by the network", "statement": "A transaction for at most 500 coins of a key (or 50 of a multisig wallet, completed) and 100 outputs, with no message or one of up to 75 bytes, to ordinary addresses and without outputs below 546 satoshis, is standard: version, weight, scripts, signature scripts, data outputs, dust, signature operations and witnesses are within what nodes of the network relay. Outside of these conditions the library does not object: it creates payments below the dust limit, messages over several data outputs and, since all coins are combined by default, transactions of 2440 and more inputs, none of which are relayed.", "quantifier": "all keys, wallets, coins, payments, messages, fees, random choices", "why_tests_cant": "Policy limits on whole transactions, for all numbers of inputs and outputs.", "anchors": ["bit/wallet.py:PrivateKey.create_transaction", "bit/wallet.py:MultiSig.create_transaction", "bit/transaction.py:create_new_transaction", "bit/transaction.py:sanitize_tx_data", "bit/transaction.py:construct_outputs"]}
{"id": "C97", "title": "What is reported is what the services said", "statement": "Whatever the services answer, honest or not, well-formed or not: every coin that get_unspent returns was listed in an answer received during that call from one of the services in force, with that transaction id, output number, amount, script and number of confirmations in the documented fields (converted exactly as currency_to_satoshi converts, counted from the height that was told, or the script of the address where the service does not say it); every id in a history and every raw transaction likewise; and a balance is the documented field, or sum of fields, of the answer. Nothing is invented, and nothing is taken from an answer of an earlier call.", "quantifier": "all services and nodes, answers, histories of calls, addresses", "why_tests_cant": "Servers can answer anything; the claim is about every possible answer.", "anchors": ["bit/network/services.py:NetworkAPI.get_unspent", "bit/network/services.py:NetworkAPI.get_balance", "bit/network/services.py:NetworkAPI.get_transactions", "bit/network/services.py:NetworkAPI.get_transaction_by_id", "bit/network/services.py:BlockchairAPI", "bit/network/services.py:BlockstreamAPI", "bit/network/services.py:BitcoreAPI", "bit/network/services.py:SmartbitAPI", "bit/network/services.py:BlockchainAPI", "bit/network/services.py:RPCHost"]}
{"id": "C98", "title": "Answers that lack something", "statement": "If a service answers a request for a balance with status 200 and JSON that lacks one of the fields, KeyError is raised, and TypeError if something without fields is found where an object is expected; no other service is asked, although others might answer.  The same goes for exchange rates of BitPay and for nodes, whose reported errors become BitcoinNodeException. If the height that Blockstream names is not a number, asking for coins raises ValueError. Blockchair's empty data mean an unknown transaction; its answer 404 to a question about coins is passed on as None instead of no coins, so that get_unspents of a wallet raises TypeError, if it was about the segwit address with the coins of the legacy address already taken over and the balance still the old one. Smartbit is the exception: an answer that does not mention coins or transactions counts as there being none. Currencies that are not supported (names are lower case) raise KeyError without any request, also from the cache.", "quantifier": "all services, answers, histories, currencies", "why_tests_cant": "Every shape of answer, at every place in the order of services.", "anchors": ["bit/network/services.py:NetworkAPI.get_balance", "bit/network/services.py:RPCMethod.__call__", "bit/network/services.py:BlockchairAPI.get_transaction_by_id", "bit/network/services.py:SmartbitAPI.get_unspent", "bit/network/services.py:SmartbitAPI.get_transactions", "bit/network/rates.py:currency_to_satoshi", "bit/network/rates.py:satoshi_to_currency", "bit/network/rates.py:currency_to_satoshi_cached"]}
{"id": "C99", "title": "What a wallet shows and spends was reported for its addresses", "statement": "Whatever the services answer: every coin that get_unspents of a key or multisig wallet returns was named, with its transaction id, output number, amount, script and confirmations, in an answer received during that call from a service in force for the wallet's network, when asked about the wallet's legacy or segwit address; every id in get_transactions likewise. The balance kept is the sum of these amounts. A transaction created without explicit unspents spends such coins only, and its signatures are made for the amounts so reported.", "quantifier": "all keys, wallets, histories of calls, answers of services, payments, options", "why_tests_cant": "Composition of wallet methods, failover and parsers for arbitrary answers.", "anchors": ["bit/wallet.py:PrivateKey.get_unspents", "bit/wallet.py:PrivateKey.get_transactions", "bit/wallet.py:PrivateKey.create_transaction", "bit/wallet.py:MultiSig.create_transaction", "bit/network/services.py:NetworkAPI.get_unspent"]}
{"id": "C100", "title": "The command bit gen", "statement": "bit gen PREFIX writes, after any number of progress messages, the uncompressed WIF of a key just generated and the address of its compressed public key, which begins with the prefix (behind the digit one, if the prefix lacks it), in a form from which both can be read off; bit gen '' writes such a pair at once. It refuses, with ValueError and without writing anything, exactly the prefixes with characters that no address has and, if there is a prefix, numbers of cores that are neither 'all' nor an integer.", "quantifier": "all prefixes, numbers of cores as text, schedules of the processes, random secrets", "why_tests_cant": "Several processes and random keys; the command is not tested.", "anchors": ["bit/cli.py:gen", "bit/keygen.py:generate_matching_address"]}
{"id": "C101", "title": "Transactions and coins as they are shown", "statement": "repr() of a transaction, an input, an output or a coin is a Python expression, a call with its attributes as arguments. Two transactions read from their encodings are shown alike exactly if the encodings are equal. A user may expect the expression to evaluate to the object shown. For coins known not to be segwit it evaluates to an equal coin. For a segwit coin it evaluates to one that is not segwit; for an input without witness to another input, as the length of the script stands where the constructor takes the transaction id; for an output it is a call with too many arguments.", "quantifier": "all transactions, coins, bytes", "why_tests_cant": "All byte strings with their escapes.", "anchors": ["bit/transaction.py:TxIn.__repr__", "bit/transaction.py:TxOut.__repr__", "bit/transaction.py:TxObj.__repr__", "bit/network/meta.py:Unspent.__repr__"]}
{"id": "C102", "title": "What nodes are asked", "statement": "A call host.a.b(arguments) on a node sends JSON which stands for the request of method a.b with exactly these arguments, and which no reader of JSON can take for anything else, whatever quotes, control characters or letters the arguments (addresses, ids, transactions) contain.", "quantifier": "all method names, all arguments made of strings, integers, truth values, null, lists and objects", "why_tests_cant": "All strings with their escapes; needs the grammar of JSON.", "anchors": ["bit/network/services.py:RPCMethod.__call__", "bit/network/services.py:RPCMethod.__getattr__", "bit/network/services.py:RPCHost.__getattr__"]}
{"id": "C103", "title": "Prepared transactions as texts", "statement": "What prepare_transaction returns is a text of printable ASCII characters, from which coins and outputs can be read off, and different coins or outputs give different texts. sign_transaction of any key or wallet reads back exactly these coins and outputs, with every size (131.5 as well as 148), amount, escape or letter in them, and signs as it would without the detour: a payment prepared on one machine and signed from the text on another is the transaction that create_transaction makes. json.loads understands every JSON text whose objects do not repeat names, however it is spaced or escaped, so the text may be reformatted on the way. json.loads accepts a text exactly if it is one of a grammar (JSON, and beyond it NaN, Infinity, -Infinity and halves of surrogate pairs), and each text stands for one value. A text that does not begin with a brace is taken for a transaction. Whatever text is given, what is signed spends the coins that the text says and pays the outputs that it says (of repeated names the last counts), or the text is a raw transaction; and every text that says coins and outputs is signed so.", "quantifier": "all coins, outputs, payments, options, JSON texts, states of the wallet", "why_tests_cant": "All texts with their escapes, blanks and numbers; json.dumps and json.loads are mocked or not reached by tests (pragma: no cover).", "anchors": ["bit/wallet.py:PrivateKey.prepare_transaction", "bit/wallet.py:PrivateKey.sign_transaction", "bit/wallet.py:MultiSig.sign_transaction", "bit/network/meta.py:Unspent.to_dict", "bit/network/meta.py:Unspent.from_dict"]}
{"id": "C104", "title": "Servers with the Insight interface", "statement": "A class made from InsightAPI with the addresses of a server reports, if the server tells what is known, exactly the balance, history, coins and raw transactions, says None exactly for a transaction that the server does not know, and posts the transaction and nothing else; refusals raise ConnectionError and are never taken for an empty answer. BitcoreAPI, which inherits these methods, is of no use for histories and single transactions: it puts the address behind the braces of the template, so that every transaction is reported as unknown and every request for a history raises ConnectionError, whatever the server knows.", "quantifier": "all templates, servers, addresses, ids, amounts", "why_tests_cant": "The class is abstract and not tested; needs servers of all kinds.", "anchors": ["bit/network/services.py:InsightAPI", "bit/network/services.py:BitcoreAPI"]}
{"id": "C105", "title": "Integers and bytes as hexadecimal texts", "statement": "int_to_hex writes a number as the shortest row of digits that has its value, in lower or upper case as asked, and hex_to_int reads it back; bytes_to_hex likewise in either case. hex_to_int takes a text for a number if and only if it is white space, a sign, 0x (and an underscore), digits with single underscores between them, and white space; all others raise ValueError. A user may expect negative numbers to be written as they are read; of a negative number int_to_hex loses the sign and keeps the x of 0x, which hex_to_int refuses.", "quantifier": "all integers, bytes, texts of characters below U+0660", "why_tests_cant": "All numbers and texts; the tests have one number.", "anchors": ["bit/utils.py:int_to_hex", "bit/utils.py:hex_to_int", "bit/utils.py:bytes_to_hex"]}
{"id": "C106", "title": "However servers write their answers", "statement": "Responses are texts. If what servers send is JSON for what they know, in any of the ways in which it can be written (spaced, escaped, ordered within what JSON allows), then it is read as that, and balance, history, coins and raw transactions come out as known, with any mixture of services out of order. A text that stands for a value is read as that value and no other, texts for the same value make no difference, and a text that is no JSON raises ValueError.", "quantifier": "all services, texts, histories of calls, addresses", "why_tests_cant": "Tests have one recorded answer for each service.", "anchors": ["bit/network/services.py:NetworkAPI.get_unspent", "bit/network/services.py:NetworkAPI.get_balance", "bit/network/services.py:NetworkAPI.get_transactions", "bit/network/services.py:NetworkAPI.get_transaction_by_id", "bit/network/services.py:RPCMethod.__call__"]}
{"id": "C107", "title": "Amounts that pass through floats are exact", "statement": "An amount of up to 21 million bitcoins that is given as a Python float (0.3), in satoshi, ubtc, mbtc or btc, is converted to exactly that number of satoshis, and in any other currency exactly as the decimal number would be. A node writes amounts as decimal fractions in JSON, which are read as floats: the coins that it reports have exactly these amounts, and what an address received is exact below ten bitcoins. The same holds for the coins that an Insight server reports, and for bitpay.com's prices: the rate used is the one of the price as written. A send whose payments are floats broadcasts a valid transaction where one with the same decimal numbers would.", "quantifier": "all amounts up to 21 million bitcoins, units, currencies, nodes", "why_tests_cant": "All 2.1e15 amounts; rests on the distances between doubles.", "anchors": ["bit/network/rates.py:currency_to_satoshi", "bit/utils.py:Decimal", "bit/network/rates.py:currency_to_satoshi_cached", "bit/network/services.py:InsightAPI.get_unspent", "bit/network/services.py:RPCHost.get_unspent", "bit/network/services.py:RPCHost.get_balance"]}
{"id": "C108", "title": "The fee is not much higher than asked for", "statement": "A transaction created at f satoshi per byte pays at most f times its virtual size (BIP 141) and: one byte; for each input what its signatures are shorter than 71 bytes (multisignature: 72 bytes for each of the m, and 3); 78 bytes for each output of a message, less the message; and, only where nothing goes back, the larger of 182 bytes and the size of the output that would have carried it. No money is lost to fees in any other way, for any mixture of coins and any number of inputs and outputs.", "quantifier": "all keys, multisignature wallets, outputs, options, coins, rates", "why_tests_cant": "Unbounded many transactions; an amount forgotten is lost to the miners without any error.", "anchors": ["bit/transaction.py:estimate_tx_fee", "bit/transaction.py:select_coins", "bit/transaction.py:sanitize_tx_data", "bit/wallet.py:PrivateKey.create_transaction", "bit/wallet.py:MultiSig.create_transaction"]}
{"id": "C109", "title": "Wallet objects have no memory of their own", "statement": "What get_unspents, get_transactions, get_balance, create_transaction, send and sign_transaction return, raise and ask of the services depends on the key, the arguments and the world, never on what this object was used for before. A program gives the same results and has the same effects whether it uses one object per key or a new one for every call, also after calls that failed. Only balance, balance_as, unspents and transactions show what this object last saw.", "quantifier": "all keys and multisignature wallets, all programs that call these methods, all attributes of the objects, all services", "why_tests_cant": "Programs and earlier uses are unbounded; hidden state shows only in some orders of calls.", "anchors": ["bit/wallet.py:PrivateKey.get_unspents", "bit/wallet.py:PrivateKey.get_transactions", "bit/wallet.py:PrivateKey.get_balance", "bit/wallet.py:PrivateKey.create_transaction", "bit/wallet.py:PrivateKey.send", "bit/wallet.py:PrivateKey.sign_transaction", "bit/wallet.py:MultiSig.create_transaction"]}
{"id": "C110", "title": "Coins and lists that wallets and callers share", "statement": "get_unspents returns the wallet's own list, and the lists given to create_transaction and send may share Unspent objects with other lists. However lists and coins are shared, a call returns, raises, asks of the services and leaves in the list that it works on what it does with unshared copies. Of the objects that existed before, it changes only: the list given (to some of its coins), or without one the wallet's own list and balance; and, only with replace_by_fee, the sequence number of selected coins of the list given. So every other list that holds those coins shows them marked, and a later payment from it signals replaceability without asking (refuted: it does not). A list that get_unspents returned does not keep its coins: a payment leaves in it only those it spends. The same holds of prepare_transaction, which so marks the caller's coins though nothing is signed or sent; sign_transaction changes no coin and no list given, and fetches the wallet's coins only if neither the arguments nor the text have any.", "quantifier": "all keys and multisignature wallets, all memories with any sharing of coins and lists, all services, arguments and options", "why_tests_cant": "Memories, and ways of sharing in them, are unbounded; the effects show on objects a test does not look at.", "anchors": ["bit/wallet.py:PrivateKey.get_unspents", "bit/wallet.py:PrivateKey.create_transaction", "bit/wallet.py:PrivateKey.send", "bit/wallet.py:PrivateKey.prepare_transaction", "bit/wallet.py:PrivateKey.sign_transaction", "bit/wallet.py:MultiSig.create_transaction", "bit/transaction.py:sanitize_tx_data", "bit/network/meta.py:Unspent.opt_in_for_RBF"]}
{"id": "C111", "title": "What the errors of creating, sending, preparing and signing mean", "statement": "With ordinary coins (valid ids, distinct outpoints, amounts a chain can hold, coins that the wallet can spend), whenever create_transaction raises, there is a reason from a closed list, and the exception is that of the reason: the service asked for the coins raised it; the service asked for the fee raised it; the conversion of an amount raised it; there are no coins (ValueError); the message cannot be encoded (AttributeError, TypeError or UnicodeEncodeError as the case may be); a destination or the change address is not an address of the wallet's network (ValueError or TypeError); the coins do not cover the payments and the fee for spending all of them (InsufficientFunds); an amount to be paid is not positive (TypeError or OverflowError). send raises for these reasons or because the broadcast raised. prepare_transaction raises for these reasons too, for any coins at all, or because there is a message of bytes, which is never prepared (TypeError); but it does prepare payments that are not positive. If it succeeds, there were coins, a fee and an amount for every payment, every destination can be paid on the network, and the outputs are written in the order given with the change last. sign_transaction of prepared data asks no service, leaves the wallet as it is and turns every error into ValueError; it fails only if create_transaction would have failed on the same coins, and it refuses prepared data if coins are given too. In particular InsufficientFunds is said only of coins that really do not cover, no coins always end in ValueError, and a wallet without an address for the change gives TypeError whatever its coins hold.", "quantifier": "every key or co-signer, request, world of services, state, exception", "why_tests_cant": "A test shows that one wrong request gives one exception. That every exception has one of these reasons, so that a caller may act on it, is a statement about all failing runs, including those deep in selection and signing.", "anchors": ["bit/wallet.py:PrivateKey.create_transaction", "bit/wallet.py:MultiSig.create_transaction", "bit/wallet.py:PrivateKey.send", "bit/transaction.py:sanitize_tx_data", "bit/transaction.py:create_new_transaction", "bit/transaction.py:construct_outputs"]}
{"id": "C112", "title": "The requests that reading an address takes", "statement": "Reading the history of an address from Blockchair (1000 on a page) or Blockchain.info (50 on a page), or its coins from Blockchair, asks for exactly the pages that the entries fill, in order and by their offsets, and for one more, which is empty; from Blockstream for the mempool (main network only), the newest page and the page after the last id of each page. The coins at Bitcore are asked for by the last id of each page, up to an empty page; at Smartbit the first page and then every link is followed once, with no page in excess, and an address without entries takes one request. No page is skipped, asked for twice or asked for without end, however long the history is. The additional page is needed: where a server refuses it, everything read before is lost (refuted: that the pages with entries are enough).", "quantifier": "all addresses, histories and sets of coins of any size, all states of the servers", "why_tests_cant": "Histories are unbounded; how often a service with limits is asked does not show in the result that a test compares.", "anchors": ["bit/network/services.py:BlockchairAPI.get_transactions", "bit/network/services.py:BlockchairAPI.get_unspent", "bit/network/services.py:BlockchainAPI.get_transactions", "bit/network/services.py:BlockstreamAPI.get_transactions"]}
{"id": "C113", "title": "Where a node is, and with which login it is asked", "statement": "After connect_to_node(user, password, host, port, use_https, path) every request about the network goes to a URL that has exactly one reading: the scheme http or https as given, the user and password given, the host and port given and the path given, if the user has none of : / ? # %, the password none of / ? # % and the host none of @ / ? #. Two nodes that differ in any of this have different URLs. Other logins do not work, and no error says so: with a password such as 12/34 a host with the name of the user is asked, on port 12, and is sent the rest of the password; a percent sign in a password is taken as an escape; what follows a colon in the user goes to the password (refuted: that any login can be used).", "quantifier": "all users, passwords, hosts, ports and paths, all states", "why_tests_cant": "All strings; tests use a login without special characters and compare the URL with the same format string.", "anchors": ["bit/network/services.py:RPCHost.__init__", "bit/network/services.py:NetworkAPI.connect_to_node"]}
