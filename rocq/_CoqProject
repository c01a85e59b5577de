-Q theories Verif
theories/Base.v
theories/M_Parity.v
theories/M_BigInt.v
theories/M_Codec.v
theories/M_BigText.v
theories/S_BigInt.v
theories/S_Codec.v
theories/S_BigApi.v
theories/P_BigInt1.v
theories/P_BigInt2.v
theories/P_BigInt3.v
theories/P_BigInt4.v
theories/P_Codec.v
theories/P_BigApi.v
theories/P_BigProp.v
theories/P_BigText2.v
theories/Prop_BigInt.v
theories/M_Loop.v
theories/M_Gcd.v
theories/M_Modular.v
theories/P_Gcd.v
theories/P_Gcd2.v
theories/P_NumTheory.v
theories/P_Modular.v
theories/Prop_Math.v
theories/M_Word.v
theories/M_Sha2.v
theories/S_Sha2.v
theories/P_Bits.v
theories/P_Sha2r.v
theories/P_Sha2.v
theories/M_Sha3.v
theories/S_Sha3.v
theories/P_Keccak.v
theories/P_Sha3.v
theories/M_Hmac.v
theories/S_Hash.v
theories/P_Hash.v
theories/Prop_Hash.v
theories/M_Rlp.v
theories/S_Rlp.v
theories/P_Rlp.v
theories/P_Rlp2.v
theories/M_EthTypes.v
theories/S_EthTypes.v
theories/P_Utf8.v
theories/P_EthTypes.v
theories/P_EthTypes2.v
theories/P_Rlp3.v
theories/Prop_Rlp.v
theories/M_Tx.v
theories/S_Tx.v
theories/P_Tx.v
theories/Prop_Tx.v
theories/M_Ssz.v
theories/S_Ssz.v
theories/S_SszRead.v
theories/P_Ssz.v
theories/P_Ssz2.v
theories/P_Ssz3.v
theories/P_Ssz4.v
theories/P_SszRead.v
theories/P_SszCanon.v
theories/S_SszZero.v
theories/P_SszZero.v
theories/Prop_Ssz.v
theories/P_Group.v
theories/S_Curve.v
theories/S_P256.v
theories/P_Curve.v
theories/M_Curve.v
theories/M_P256.v
theories/S_EcModel.v
theories/P_EcModel.v
theories/P_Order.v
theories/P_SecpChain.v
theories/P_Fast.v
theories/P_Cert.v
theories/P_Secp.v
theories/P_EcEx.v
theories/P_EcFast.v
theories/P_ToyNonce.v
theories/P_EcLaws.v
theories/Prop_Curve.v
theories/M_Random.v
theories/M_Ecdsa.v
theories/M_Rfc6979.v
theories/S_Ecdsa.v
theories/S_Recover.v
theories/P_Ecdsa1.v
theories/P_Ecdsa2.v
theories/P_Ecdsa3.v
theories/S_Rfc6979.v
theories/P_Rfc6979.v
theories/S_Sign.v
theories/P_Sign.v
theories/P_EcdsaProp.v
theories/P_EcdsaProp2.v
theories/P_EcdsaEx.v
theories/P_EcdsaSecp.v
theories/P_SignExact.v
theories/P_RecoverNoDup.v
theories/P_RecoverEx.v
theories/Prop_Ecdsa.v
theories/M_Encoding.v
theories/S_Encoding.v
theories/P_Encoding.v
theories/P_Encoding2.v
theories/P_EncodingProp.v
theories/Prop_Encoding.v
theories/S_Random.v
theories/P_Random.v
theories/Prop_Random.v
theories/M_Eoa.v
theories/M_TxSign.v
theories/S_Eoa.v
theories/P_Eoa.v
theories/P_TxSign.v
theories/P_TxEx.v
theories/P_RlpInj.v
theories/S_RlpRead.v
theories/P_RlpRead.v
theories/P_RlpRead2.v
theories/P_RlpNorm.v
theories/P_RlpReadEx.v
theories/Prop_RlpRead.v
theories/P_Portable.v
theories/P_TxEx2.v
theories/Prop_Eth.v
theories/P_SecpApi.v
theories/P_SecpKatChain.v
theories/P_Sha2Fast.v
theories/P_SecpKatHmac.v
theories/P_SecpKat.v
theories/Prop_Secp.v
theories/P_NoTwo.v
theories/P_P256Chain.v
theories/P_P256.v
theories/P_P256Api.v
theories/P_P256KatChain.v
theories/P_P256Kat.v
theories/Prop_P256.v
theories/S_Portable.v
theories/P_SignRand.v
theories/P_PortableEx.v
theories/Prop_Portable.v
theories/M_Display.v
theories/S_Display.v
theories/P_Display.v
theories/Prop_Display.v
theories/M_Once.v
theories/S_Once.v
theories/P_Once.v
theories/Prop_Once.v
theories/M_Leak.v
theories/S_Leak.v
theories/P_Leak.v
theories/Prop_Leak.v
theories/S_Text.v
theories/P_Text.v
theories/Prop_Text.v
theories/S_Release.v
theories/P_Release.v
theories/P_Release2.v
theories/P_Release3.v
theories/Prop_Release.v
theories/S_SszSize.v
theories/P_SszSize.v
theories/S_RlpSize.v
theories/P_RlpSize.v
theories/Prop_Size.v
theories/M_Examples.v
theories/S_Examples.v
theories/P_Examples.v
theories/P_ExJson.v
theories/P_ExTx.v
theories/P_ExKey.v
theories/Prop_Examples.v
theories/M_Errors.v
theories/S_Errors.v
theories/P_Errors.v
theories/Prop_Errors.v
theories/P_Amounts.v
theories/Prop_Amounts.v
theories/S_Send.v
theories/P_Send.v
theories/P_SendLive.v
theories/P_Eip155Hmac.v
theories/P_Eip155Chain.v
theories/P_Eip155.v
theories/Prop_Send.v
