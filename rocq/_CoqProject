-Q theories Verif
theories/Base.v
theories/Proof_Base.v
theories/Model_Replay.v
theories/Spec_Replay.v
theories/Proof_Replay.v
theories/Prop_Replay.v
theories/Model_Cbor.v
theories/Proof_Cbor.v
theories/Model_Crypto.v
theories/Spec_Hkdf.v
theories/Proof_Hkdf.v
theories/Model_Common.v
theories/Model_OscorePrims.v
theories/Spec_OscorePrims.v
theories/Proof_OscorePrims.v
theories/Spec_CborTree.v
theories/Proof_CborTree.v
theories/Proof_CborStable.v
theories/Proof_CborUnique.v
theories/Spec_Edhoc.v
theories/Model_EdhocCfg.v
theories/Model_EdhocCbor.v
theories/Model_EdhocKeys.v
theories/Model_EdhocCert.v
theories/Model_EdhocMsg.v
theories/Model_EdhocRun.v
theories/Model_EdhocMsg4.v
theories/Proof_EdhocBase.v
theories/Proof_EdhocMsg1.v
theories/Proof_EdhocMsg.v
theories/Spec_EdhocCred.v
theories/Spec_EdhocRun.v
theories/Spec_EdhocView.v
theories/Proof_EdhocCred.v
theories/Proof_EdhocRun.v
theories/Proof_EdhocMsg4.v
theories/Spec_EdhocSize.v
theories/Proof_EdhocAgree.v
theories/Proof_EdhocDefault.v
theories/Proof_EdhocSafe.v
theories/Model_Toy.v
theories/Proof_Toy.v
theories/Model_ToyEdhoc.v
theories/Prop_EdhocAuth.v
theories/Proof_EdhocSound.v
theories/Proof_EdhocSame.v
theories/Prop_EdhocCred.v
theories/Prop_EdhocRun.v
theories/Prop_EdhocMsg4.v
theories/Prop_EdhocSame.v
theories/Spec_P256.v
theories/Model_P256.v
theories/Proof_Prime.v
theories/Proof_P256.v
theories/Proof_P256Dh.v
theories/Prop_P256.v
theories/Prop_EdhocSize.v
theories/Prop_EdhocKeys.v
theories/Prop_EdhocMsg1.v
theories/Prop_Prims.v
theories/Model_Coap.v
theories/Model_Interactions.v
theories/Model_Context.v
theories/Model_Send.v
theories/Model_Recv.v
theories/Spec_Coap.v
theories/Proof_Coap.v
theories/Prop_Coap.v
theories/Spec_Interactions.v
theories/Proof_Interactions.v
theories/Spec_UriPath.v
theories/Proof_UriPath.v
theories/Prop_Interactions.v
theories/Spec_OscoreOption.v
theories/Proof_OscoreOption.v
theories/Spec_Options.v
theories/Proof_Options.v
theories/Prop_Options.v
theories/Proof_Send.v
theories/Proof_Recv.v
theories/Model_Run.v
theories/Spec_Session.v
theories/Proof_Run.v
theories/Model_ToyRun.v
theories/Proof_Session.v
theories/Prop_Session.v
theories/Prop_Auth.v
theories/Proof_Nonce.v
theories/Prop_Nonce.v
theories/Proof_Wire.v
theories/Prop_Wire.v
theories/Proof_Echo.v
theories/Prop_Echo.v
theories/Prop_Context.v
theories/Spec_RoundTrip.v
theories/Proof_RoundTrip.v
theories/Prop_RoundTrip.v
theories/Spec_Nvm.v
theories/Proof_Nvm.v
theories/Prop_Nvm.v
theories/Spec_Protect.v
theories/Proof_Protect.v
theories/Prop_Protect.v
theories/Model_App.v
theories/Spec_Traffic.v
theories/Model_Net.v
theories/Proof_Net.v
theories/Proof_Traffic.v
theories/Prop_Traffic.v
theories/Spec_OuterCode.v
theories/Proof_OuterCode.v
theories/Prop_OuterCode.v
theories/Spec_Channel.v
theories/Proof_Channel.v
theories/Prop_Channel.v
theories/Spec_Safe.v
theories/Proof_Safe.v
theories/Prop_Safe.v
theories/Spec_EdhocUb.v
theories/Proof_EdhocUb.v
theories/Prop_EdhocUb.v
theories/Prop_EdhocUb4.v
theories/Prop_EdhocBadId.v
theories/Prop_EdhocField3.v
theories/Prop_EdhocLeft.v
theories/Model_Uecc.v
theories/Spec_Uecc.v
theories/Proof_Uecc.v
theories/Proof_P256Odd.v
theories/Prop_Uecc.v
theories/Model_Wrapper.v
theories/Spec_Wrapper.v
theories/Proof_Wrapper.v
theories/Proof_WrapperRef.v
theories/Prop_Wrapper.v
theories/Model_Tiny.v
theories/Spec_Tiny.v
theories/Prop_Tiny.v
theories/Spec_Net.v
theories/Proof_Loss.v
theories/Prop_Net.v
theories/Model_EdhocOut.v
theories/Spec_EdhocOut.v
theories/Proof_EdhocOut.v
theories/Prop_EdhocOut.v
theories/Model_Reboot.v
theories/Spec_Reboot.v
theories/Proof_Reboot.v
theories/Prop_Reboot.v
theories/Proof_Ids.v
theories/Prop_Ids.v
theories/Prop_Directions.v
theories/Model_Store.v
theories/Spec_Store.v
theories/Proof_Store.v
theories/Prop_Store.v
theories/Spec_CertDer.v
theories/Proof_CertDer.v
theories/Prop_CertDer.v
theories/Spec_EdhocEad.v
theories/Proof_EdhocEad.v
theories/Prop_EdhocEad.v
theories/Spec_Interop.v
theories/Proof_Interop.v
theories/Prop_Interop.v
theories/Spec_EdhocInterop.v
theories/Proof_EdhocParams.v
theories/Proof_EdhocInterop.v
theories/Prop_EdhocInterop.v
theories/Prop_EdhocMsg1Limits.v
theories/Spec_Standard.v
theories/Proof_Standard.v
theories/Prop_Standard.v
theories/Prop_Trace.v
theories/Proof_Lost.v
theories/Prop_Lost.v
theories/Model_Threads.v
theories/Spec_Threads.v
theories/Proof_Threads.v
theories/Prop_Threads.v
theories/Spec_Replayed.v
theories/Proof_Replayed.v
theories/Prop_Replayed.v
theories/Spec_Stripped.v
theories/Proof_Stripped.v
theories/Prop_Stripped.v
theories/Proof_CoapExact.v
theories/Prop_CoapExact.v
theories/Spec_Cut.v
theories/Prop_Cut.v
theories/Spec_Peer.v
theories/Proof_Peer.v
theories/Prop_Peer.v
theories/Spec_Injected.v
theories/Proof_Injected.v
theories/Prop_Injected.v
theories/Prop_Stale.v
theories/Prop_NvmReuse.v
theories/Prop_Pending.v
theories/Prop_Shared.v
