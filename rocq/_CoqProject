-Q theories Verif
theories/Base.v
theories/Helpers.v
theories/Helpers_spec.v
theories/Helpers_proofs.v
theories/Prop_Helpers.v
theories/Lai.v
theories/Lai_proofs.v
theories/Prop_Lai.v
theories/IuClient.v
theories/IuClient_frame.v
theories/IuClient_spec.v
theories/IuClient_reg.v
theories/IuClient_step.v
theories/IuClient_inv.v
theories/IuClient_area.v
theories/IuClient_conn.v
theories/IuClient_life.v
theories/IuClient_life2.v
theories/IuClient_loss.v
theories/IuClient_loss2.v
theories/IuClient_rel.v
theories/IuClient_rel2.v
theories/IuClient_ex.v
theories/Prop_Area.v
theories/Prop_Conn.v
theories/Prop_Loss.v
theories/Prop_Release.v
theories/IuClient_call_spec.v
theories/IuClient_call.v
theories/Prop_Call.v
theories/Aper.v
theories/Aper_spec.v
theories/Aper_proofs.v
theories/Aper_valid.v
theories/Aper_len.v
theories/Aper_decode.v
theories/RanapTypes.v
theories/RuaTypes.v
theories/HnbapTypes.v
theories/SabpTypes.v
theories/AllTypes.v
theories/Prop_Codec.v
theories/Constr.v
theories/ConstrTab.v
theories/Constr_spec.v
theories/Constr_proofs.v
theories/Prop_Constr.v
theories/X691.v
theories/X691_proofs.v
theories/Prop_Format.v
theories/Evolve_spec.v
theories/Evolve_proofs.v
theories/Prop_Evolve.v
theories/Container.v
theories/Container_spec.v
theories/Container_proofs.v
theories/RanapTab.v
theories/RuaTab.v
theories/HnbapTab.v
theories/SabpTab.v
theories/RanapSpec.v
theories/RuaSpec.v
theories/HnbapSpec.v
theories/SabpSpec.v
theories/AllMsgs.v
theories/Prop_Container.v
theories/Container_exact.v
theories/Prop_Read.v
theories/PerBits.v
theories/Asn1_spec.v
theories/RanapAsn.v
theories/RuaAsn.v
theories/HnbapAsn.v
theories/SabpAsn.v
theories/RanapFull.v
theories/RuaFull.v
theories/HnbapFull.v
theories/SabpFull.v
theories/Full_spec.v
theories/Full_proofs.v
theories/Prop_Full.v
theories/Asn1_proofs.v
theories/Prop_Grammar.v
theories/Interop_spec.v
theories/Interop_proofs.v
theories/Prop_Interop.v
theories/DispatchTab.v
theories/RanapProc.v
theories/Dispatch.v
theories/Dispatch_spec.v
theories/Dispatch_proofs.v
theories/Deliver_spec.v
theories/Deliver_proofs.v
theories/Prop_Dispatch.v
theories/Prop_Deliver.v
theories/Wire_spec.v
theories/Factory_spec.v
theories/Factory.v
theories/Factory_golden.v
theories/Factory_len.v
theories/Wire_proofs.v
theories/Factory_proofs.v
theories/Factory_msgs.v
theories/Factory_rab.v
theories/Factory_mem.v
theories/Factory_exact.v
theories/Prop_Factory.v
theories/E2e_spec.v
theories/E2e_proofs.v
theories/Prop_E2e.v
theories/Items.v
theories/Items_spec.v
theories/Items_proofs.v
theories/Prop_Items.v
theories/Stack.v
theories/Stack_spec.v
theories/Stack_safe.v
theories/Stack_proofs.v
theories/Stack_msgs.v
theories/Stack_crash.v
theories/Prop_Stack.v
theories/Wire_msgs.v
theories/Prop_Wire.v
theories/RuaFactory_spec.v
theories/RuaFactory.v
theories/RuaFactory_proofs.v
theories/Prop_Rua.v
theories/Hnb.v
theories/Hnb_spec.v
theories/Hnb_proofs.v
theories/Prop_Hnb.v
theories/RuaProc.v
theories/HnbapProc.v
theories/SabpProc.v
theories/Conform_spec.v
theories/Conform_proofs.v
theories/Conform_read.v
theories/Prop_Conform.v
theories/Capture.v
theories/Capture_ex.v
theories/Tests_ex.v
theories/Memory_spec.v
theories/Memory.v
theories/Memory_proofs.v
theories/Memory_calls.v
theories/Memory_rua.v
theories/Prop_Memory.v
theories/ClientMem.v
theories/ClientMem_spec.v
theories/ClientMem_proofs.v
theories/ClientMem_count.v
theories/ClientMem_how.v
theories/Prop_ClientMem.v
theories/IuClient_iso_spec.v
theories/IuClient_iso.v
theories/Prop_Iso.v
theories/IuClient_quiet.v
theories/Prop_Unused.v
theories/Talk_spec.v
theories/Talk_proofs.v
theories/Prop_Talk.v
theories/Vty_spec.v
theories/Vty.v
theories/Vty_proofs.v
theories/Prop_Vty.v
theories/NameSpec.v
theories/NameTab.v
theories/CauseStr_spec.v
theories/CauseStr.v
theories/CauseStr_proofs.v
theories/Prop_Names.v
theories/AsnText.v
theories/Regex.v
theories/Generator.v
theories/Generator_spec.v
theories/Generator_proofs.v
theories/Generator_layout.v
theories/AsnLayout.v
theories/Generator_repo_spec.v
theories/Generator_files.v
theories/Generator_more.v
theories/Prop_Generator.v
theories/Generator_lists_spec.v
theories/Generator_lists.v
theories/Prop_GenLists.v
theories/UsedNames.v
theories/Naming.v
theories/Naming_spec.v
theories/Naming_proofs.v
theories/Prop_Interface.v
theories/MemDec.v
theories/MemDec_spec.v
theories/MemDec_proofs.v
theories/Prop_MemDec.v
theories/Emit.v
theories/Emit_spec.v
theories/Emit_proofs.v
theories/Emit_any.v
theories/Prop_Emit.v
theories/Order_spec.v
theories/Order_proofs.v
theories/Prop_Order.v
theories/IuClient_bound_spec.v
theories/IuClient_bound.v
theories/Prop_Bound.v
theories/IuClient_reset.v
theories/Prop_Reset.v
theories/IuClient_intro.v
theories/Prop_Intro.v
theories/CDecl.v
theories/HeaderTab.v
theories/DescTab.v
theories/NamedNumbers.v
theories/Header_spec.v
theories/Header_proofs.v
theories/Prop_Headers.v
theories/UseTab.v
theories/Use_spec.v
theories/Use_proofs.v
theories/Prop_Members.v
theories/Xer.v
theories/Xer_spec.v
theories/Xer_proofs.v
theories/XerFactory.v
theories/XerFactory_proofs.v
theories/XerStack.v
theories/XerStack_proofs.v
theories/Prop_Xer.v
theories/Prop_XerClient.v
theories/Start.v
theories/Start_proofs.v
theories/Prop_Start.v
theories/IuClient_known.v
theories/Prop_Known.v
