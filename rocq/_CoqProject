-Q theories Verif

theories/Py.v
theories/M_utils.v
theories/M_crypto.v
theories/M_base58.v
theories/M_base32.v
theories/F_base.v
theories/S_Wire.v
theories/S_Script.v
theories/F_utils.v
theories/S_Base58.v
theories/F_base58.v
theories/S_Hex.v
theories/F_hex.v
theories/P_utils.v
theories/P_base58.v
theories/S_Bech32.v
theories/F_gf32.v
theories/F_polymod.v
theories/F_bcherr.v
theories/F_convert.v
theories/F_bech32.v
theories/P_base32.v
theories/F_prime.v
theories/M_curve.v
theories/M_format.v
theories/S_Curve.v
theories/F_curve.v
theories/S_Addr.v
theories/F_wif.v
theories/F_redeem.v
theories/F_address.v
theories/X_hash.v
theories/X_crypto.v
theories/P_format.v
theories/M_tx.v
theories/S_Tx.v
theories/F_tx.v
theories/P_tx.v
theories/M_unspent.v
theories/M_select.v
theories/S_Fee.v
theories/F_select.v
theories/P_select.v
theories/P_unspent.v
theories/M_key.v
theories/M_sign.v
theories/M_io.v
theories/M_wallet.v
theories/S_Sighash.v
theories/F_sighash.v
theories/F_sign.v
theories/F_signtx.v
theories/F_spend.v
theories/X_toy.v
theories/P_sign.v
theories/P_multi.v
theories/F_multi.v
theories/F_cosign.v
theories/F_msstep.v
theories/F_cosigntx.v
theories/F_wire.v
theories/F_wallet.v
theories/S_Utf8.v
theories/F_utf8.v
theories/X_world.v
theories/P_outputs.v
theories/P_wallet.v
theories/F_build.v
theories/P_create.v
theories/P_send.v
theories/P_wire.v
theories/P_state.v
theories/P_keys.v
theories/M_keygen.v
theories/S_Keygen.v
theories/P_keygen.v
theories/P_offline.v
theories/S_Size.v
theories/F_size.v
theories/P_size.v
theories/M_decimal.v
theories/M_network.v
theories/M_rates.v
theories/M_fees.v
theories/M_services.v
theories/S_Decimal.v
theories/F_decimal.v
theories/X_net.v
theories/P_rates.v
theories/S_History.v
theories/F_network.v
theories/P_network.v
theories/S_Servers.v
theories/F_servers.v
theories/X_server.v
theories/P_services.v
theories/S_Failover.v
theories/P_failover.v
theories/P_anyservice.v
theories/M_app.v
theories/F_app.v
theories/P_app.v
theories/S_Requests.v
theories/P_requests.v
theories/S_Consensus.v
theories/P_consensus.v
theories/P_live.v
theories/X_vectors.v
theories/X_tests.v
theories/M_objects.v
theories/P_objects.v
theories/S_Refusal.v
theories/P_refusal.v
theories/P_device.v
theories/S_After.v
theories/P_after.v
theories/P_through.v
theories/M_depth.v
theories/P_depth.v
theories/P_limit.v
theories/M_init.v
theories/P_init.v
theories/S_Timeout.v
theories/P_timeout.v
theories/P_txid.v
theories/P_lies.v
theories/S_Numeral.v
theories/P_numeral.v
theories/S_Replace.v
theories/S_Standard.v
theories/S_Answers.v
theories/P_again.v
theories/P_standard.v
theories/P_answers.v
theories/M_cli.v
theories/S_Cli.v
theories/P_cli.v
theories/M_repr.v
theories/S_Repr.v
theories/P_repr.v
theories/S_Reported.v
theories/P_reported.v
theories/M_methods.v
theories/P_methods.v
theories/M_json.v
theories/S_Json.v
theories/P_json.v
theories/M_loads.v
theories/S_Prepared.v
theories/P_loads.v
theories/P_prepared.v
theories/S_Loads.v
theories/P_says.v
theories/P_exact.v
theories/M_insight.v
theories/S_Insight.v
theories/P_insight.v
theories/M_hexint.v
theories/S_HexInt.v
theories/P_hexint.v
theories/P_cases.v
theories/M_reply.v
theories/S_Float.v
theories/F_float.v
theories/S_Reply.v
theories/P_reply.v
theories/P_float.v
theories/P_floatpay.v
theories/P_fee.v
theories/P_memory.v
theories/M_multisig.v
theories/P_msmake.v
theories/M_heap.v
theories/P_heap.v
theories/P_why.v
theories/P_pages.v
theories/P_nothex.v
theories/P_links.v
theories/P_url.v
theories/P_excess.v
theories/P_mixed.v
theories/M_heap2.v
theories/P_heap2.v
theories/P_getfee.v
theories/P_whyprep.v
theories/P_whysign.v
theories/P_notours.v
theories/P_prepok.v
theories/P_failcreate.v
