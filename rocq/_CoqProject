-Q theories Verif
theories/L_Address.v
theories/L_Args.v
theories/L_Assoc.v
theories/L_Base58.v
theories/L_BigInteger.v
theories/L_Bitcoin.v
theories/L_Bytes.v
theories/L_Chain.v
theories/L_Crypto.v
theories/L_Div.v
theories/L_Div2.v
theories/L_EC.v
theories/L_EC2.v
theories/L_EC3.v
theories/L_Ecdsa.v
theories/L_Endian.v
theories/L_Fermat.v
theories/L_Field.v
theories/L_Fixed8.v
theories/L_Fixed8Float.v
theories/L_Fixed8b.v
theories/L_Float.v
theories/L_FloatDiv.v
theories/L_FloatIO.v
theories/L_FloatRepr.v
theories/L_FloatRepr2.v
theories/L_FloatRepr3.v
theories/L_Fp.v
theories/L_Fp2.v
theories/L_Group.v
theories/L_Hash.v
theories/L_Hash2.v
theories/L_Hex.v
theories/L_IO.v
theories/L_IO2.v
theories/L_IO3.v
theories/L_IO4.v
theories/L_IO5.v
theories/L_Merkle.v
theories/L_Merkle2.v
theories/L_MerkleObj.v
theories/L_Mul.v
theories/L_Mul2.v
theories/L_Mult.v
theories/L_Nep2.v
theories/L_Nep2b.v
theories/L_Nep2c.v
theories/L_Nep2d.v
theories/L_Order.v
theories/L_Overwrite.v
theories/L_Parse.v
theories/L_Prime.v
theories/L_Prime2.v
theories/L_Recursion.v
theories/L_UInt.v
theories/L_UIntColl.v
theories/L_Utf8.v
theories/L_VarInt.v
theories/L_Wrong.v
theories/M_Args.v
theories/M_Base58.v
theories/M_BigInteger.v
theories/M_BigMore.v
theories/M_Bitcoin.v
theories/M_ClassName.v
theories/M_Cli.v
theories/M_Crypto.v
theories/M_ECCurve.v
theories/M_Endian.v
theories/M_FieldObj.v
theories/M_Fixed8.v
theories/M_Fixed8Big.v
theories/M_Fixed8Dec.v
theories/M_Fixed8Float.v
theories/M_Fixed8Heap.v
theories/M_Fixed8Ops.v
theories/M_Float.v
theories/M_FloatIO.v
theories/M_FloatRepr.v
theories/M_Hash.v
theories/M_Helper.v
theories/M_HelperArgs.v
theories/M_KeyPair.v
theories/M_Merkle.v
theories/M_MerkleArgs.v
theories/M_MerkleObj.v
theories/M_Nep2.v
theories/M_OtherArgs.v
theories/M_Parse.v
theories/M_Py.v
theories/M_RandomKey.v
theories/M_Reader.v
theories/M_Recursion.v
theories/M_Shared.v
theories/M_Stream.v
theories/M_Threads.v
theories/M_UInt.v
theories/M_UIntColl.v
theories/M_UIntHeap.v
theories/M_Version.v
theories/M_Writer.v
theories/M_WriterArgs.v
theories/P_Address.v
theories/P_Args.v
theories/P_BigInteger.v
theories/P_BigMore.v
theories/P_Bitcoin.v
theories/P_Bitcoin2.v
theories/P_ClassName.v
theories/P_Cli.v
theories/P_Crypto.v
theories/P_Div.v
theories/P_EC.v
theories/P_ECDSA.v
theories/P_Endian.v
theories/P_Field.v
theories/P_FieldObj.v
theories/P_Fixed8.v
theories/P_Fixed8Big.v
theories/P_Fixed8Dec.v
theories/P_Fixed8Float.v
theories/P_Fixed8Ops.v
theories/P_FloatIO.v
theories/P_FloatRepr.v
theories/P_Group.v
theories/P_Group2.v
theories/P_Hash.v
theories/P_Hash2.v
theories/P_Helper.v
theories/P_HelperArgs.v
theories/P_IO.v
theories/P_KeyPair.v
theories/P_Lucas.v
theories/P_Merkle.v
theories/P_Merkle2.v
theories/P_MerkleArgs.v
theories/P_MerkleObj.v
theories/P_Mul.v
theories/P_Nep2.v
theories/P_OtherArgs.v
theories/P_Overwrite.v
theories/P_Parse.v
theories/P_PointObj.v
theories/P_RandomKey.v
theories/P_Recursion.v
theories/P_Shared.v
theories/P_Stream.v
theories/P_Threads.v
theories/P_UInt.v
theories/P_UIntColl.v
theories/P_Version.v
theories/P_WriterArgs.v
theories/S_Address.v
theories/S_Args.v
theories/S_BigInteger.v
theories/S_BigMore.v
theories/S_Cli.v
theories/S_Crypto.v
theories/S_EC.v
theories/S_Endian.v
theories/S_Fixed8.v
theories/S_Fixed8Dec.v
theories/S_Fixed8Float.v
theories/S_Float.v
theories/S_FloatIO.v
theories/S_FloatRepr.v
theories/S_Group.v
theories/S_Hash.v
theories/S_IO.v
theories/S_IO2.v
theories/S_KeyPair.v
theories/S_Merkle.v
theories/S_MerkleObj.v
theories/S_Msg.v
theories/S_Nep2.v
theories/S_Overwrite.v
theories/S_Parse.v
theories/S_Recursion.v
theories/S_Shared.v
theories/S_Signature.v
theories/S_Stream.v
theories/S_Threads.v
theories/S_UInt.v
theories/S_UIntColl.v
theories/S_WriterArgs.v
theories/T_Repo.v
