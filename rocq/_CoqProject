-Q theories Verif

theories/Word.v
theories/Branch_Model.v
theories/Branch_Spec.v
theories/Branch_Proofs.v
theories/Branch_Props.v
theories/LinkStack_Model.v
theories/LinkStack_Spec.v
theories/LinkStack_Proofs.v
theories/LinkStack_Props.v
theories/Codec_Types.v
theories/Writer_Model.v
theories/Reader_Model.v
theories/Reader_Spec.v
theories/Reader_Class.v
theories/Reader_Proofs.v
theories/Reader_Proofs2.v
theories/Reader_Proofs3.v
theories/Reader_Props.v
theories/Writer_Spec.v
theories/Writer_Proofs.v
theories/Codec_Spec.v
theories/Codec_Proofs.v
theories/Codec_Proofs2.v
theories/Codec_Proofs3.v
theories/Codec_Proofs4.v
theories/Codec_Proofs5.v
theories/Codec_Props.v
theories/Bb_Model.v
theories/Bb_Spec.v
theories/Bb_Proofs.v
theories/Bb_Proofs2.v
theories/Bb_Props.v
theories/Tlb_Model.v
theories/Tlb_Spec.v
theories/Tlb_Proofs.v
theories/Tlb_Proofs2.v
theories/Tlb_Props.v
theories/Pwc_Model.v
theories/Pwc_Spec.v
theories/Pwc_Proofs.v
theories/Pwc_Props.v
theories/Xlate_Model.v
theories/Xlate_Spec.v
theories/Xlate_Proofs.v
theories/Xlate_Full.v
theories/Xlate_Props.v
theories/Layout_Spec.v
theories/Layout_Fields.v
theories/Layout_Proofs.v
theories/Layout_Proofs2.v
theories/Layout_Proofs3.v
theories/Layout_Props.v
theories/HtmBits_Model.v
theories/HtmBits_Spec.v
theories/HtmBits_Proofs.v
theories/HtmBits_Props.v
theories/Htm_Model.v
theories/Htm_Spec.v
theories/Htm_Proofs.v
theories/Htm_Proofs2.v
theories/Htm_Proofs3.v
theories/Htm_Props.v
theories/Stats_Model.v
theories/Stats_Spec.v
theories/Stats_Proofs.v
theories/Stats_Proofs2.v
theories/Stats_Props.v
theories/Htable_Model.v
theories/Htable_Spec.v
theories/Htable_Proofs.v
theories/Htable_Proofs2.v
theories/Htable_Proofs3.v
theories/Htable_Props.v
theories/Matrix_Model.v
theories/Matrix_Spec.v
theories/Matrix_Proofs.v
theories/Matrix_Props.v
theories/Pam_Model.v
theories/Pam_Spec.v
theories/Pam_Proofs.v
theories/Pam_Props.v
theories/Bbv_Model.v
theories/Bbv_Spec.v
theories/Bbv_Proofs.v
theories/Bbv_Proofs2.v
theories/Bbv_Proofs3.v
theories/Bbv_Props.v
theories/Storage_Model.v
theories/Storage_Spec.v
theories/Storage_Proofs.v
theories/Storage_Props.v
theories/Step_Model.v
theories/Step_Spec.v
theories/Step_Proofs.v
theories/Step_Proofs2.v
theories/Step_Proofs3.v
theories/Step_Props.v
theories/Pagemap_Model.v
theories/Pagemap_Spec.v
theories/Pagemap_Proofs.v
theories/Pagemap_Props.v
theories/Pids_Model.v
theories/Pids_Spec.v
theories/Pids_Proofs.v
theories/Pids_Props.v
theories/Sym_Model.v
theories/Sym_Spec.v
theories/Sym_Proofs.v
theories/Sym_Props.v
theories/Build_Model.v
theories/Build_Spec.v
theories/Build_Proofs.v
theories/Build_Proofs2.v
theories/Rebuild_Model.v
theories/Rebuild_Spec.v
theories/Rebuild_Proofs.v
theories/Build_Proofs3.v
theories/Build_Props.v
theories/Rebuild_Props.v
theories/Xlate_Complete.v
theories/Trace_Spec.v
theories/Trace_Proofs.v
theories/Trace8_Proofs.v
theories/Trace8_Proofs2.v
theories/Trace8_Proofs3.v
theories/Trace8_Proofs4.v
theories/Trace8_Proofs5.v
theories/Trace8_Props.v
theories/Trace10_Spec.v
theories/Trace10_Proofs.v
theories/Trace10_Proofs2.v
theories/Trace10_Proofs3.v
theories/Trace10_Proofs4.v
theories/Trace10_Proofs5.v
theories/Trace10_Proofs6.v
theories/Trace10_Proofs7.v
theories/Trace10_Props.v
theories/Convert_Model.v
theories/Convert_Spec.v
theories/Convert_Proofs.v
theories/Convert_Proofs2.v
theories/Convert_Proofs3.v
theories/Convert_Proofs4.v
theories/Convert_Props.v
theories/Tracer_Model.v
theories/Tracer_Spec.v
theories/Tracer_Proofs.v
theories/Tracer_Proofs2.v
theories/Tracer_Proofs3.v
theories/Tracer_Proofs4.v
theories/Tracer_Props.v
theories/Forward_Model.v
theories/Forward_Spec.v
theories/Forward_Proofs.v
theories/Forward_Props.v
theories/Qtdis_Model.v
theories/Qtdis_Spec.v
theories/Qtdis_Proofs.v
theories/Qtdis_Proofs2.v
theories/Qtdis_Proofs3.v
theories/Qtdis_Props.v
theories/Hash_Model.v
theories/Hash_Spec.v
theories/Hash_Proofs.v
theories/Hash_Proofs2.v
theories/Hash_Proofs3.v
theories/Hash_Proofs4.v
theories/Hash_Props.v
theories/Verbose_Model.v
theories/Verbose_Spec.v
theories/Verbose_Proofs.v
theories/Vectors.v
theories/Vectors_Proofs.v
theories/Verbose_Props.v
theories/List_Model.v
theories/List_Spec.v
theories/List_Proofs.v
theories/List_Proofs2.v
theories/List_Proofs3.v
theories/List_Proofs4.v
theories/List_Proofs5.v
theories/List_Props.v
theories/Capture_Model.v
theories/Capture_Spec.v
theories/Capture_Proofs.v
theories/Capture_Proofs2.v
theories/Capture_Proofs3.v
theories/Capture_Props.v
theories/Opcode_Table.v
theories/Opcode_Spec.v
theories/Opcode_Proofs.v
theories/Opcode_Proofs2.v
theories/Opcode_Proofs3.v
theories/Opcode_Props.v
theories/Str_Model.v
theories/Str_Spec.v
theories/Str_Proofs.v
theories/Str_Proofs2.v
theories/Str_Proofs3.v
theories/Str_Props.v
theories/Tools_Model.v
theories/Tools_Spec.v
theories/Tools_Proofs.v
theories/Tools_Proofs2.v
theories/Tools_Proofs3.v
theories/Tools_Props.v
theories/Copy_Model.v
theories/Copy_Proofs.v
theories/Copy_Proofs2.v
theories/Copy_Proofs3.v
theories/Copy_Props.v
theories/Vectors2.v
theories/Regs_Model.v
theories/Regs_Spec.v
theories/Regs_Proofs.v
theories/Regs_Proofs2.v
theories/Regs_Props.v
theories/Args_Model.v
theories/Args_Spec.v
theories/Args_Proofs.v
theories/Args_Proofs2.v
theories/Args_Props.v
theories/Start_Model.v
theories/Start_Proofs.v
theories/Start_Props.v
theories/Script_Model.v
theories/Script_Spec.v
theories/Script_Proofs.v
theories/Script_Proofs2.v
theories/Script_Props.v
theories/Both_Model.v
theories/Both_Spec.v
theories/Both_Proofs.v
theories/Both_Proofs2.v
theories/Both_Proofs3.v
theories/Both_Props.v
theories/Pipe_Model.v
theories/Pipe_Spec.v
theories/Pipe_Proofs.v
theories/Pipe_Proofs2.v
theories/Pipe_Props.v
theories/Resume_Spec.v
theories/Resume_Proofs.v
theories/Resume_Proofs2.v
theories/Resume_Proofs3.v
theories/Resume_Proofs4.v
theories/Resume_Proofs5.v
theories/Resume_Proofs6.v
theories/Resume_Props.v
theories/Retrace_Spec.v
theories/Retrace_Proofs.v
theories/Retrace_Props.v
theories/Profile_Model.v
theories/Profile_Spec.v
theories/Profile_Proofs.v
theories/Profile_Proofs2.v
theories/Profile_Props.v
theories/Cut_Spec.v
theories/Cut_Proofs.v
theories/Cut_Proofs2.v
theories/Cut_Props.v
theories/Fault_Spec.v
theories/Fault_Proofs.v
theories/Fault_Proofs2.v
theories/Fault_Props.v
theories/Tlbdump_Model.v
theories/Tlbdump_Spec.v
theories/Tlbdump_Proofs.v
theories/Tlbdump_Proofs2.v
theories/Tlbdump_Proofs3.v
theories/Tlbdump_Proofs4.v
theories/Tlbdump_Props.v
theories/Flow_Spec.v
theories/Report_Model.v
theories/Report_Spec.v
theories/Report_Proofs.v
theories/Report_Proofs2.v
theories/Report_Props.v
theories/Names_Model.v
theories/Table_Model.v
theories/Table_Spec.v
theories/Table_Proofs.v
theories/Table_Proofs2.v
theories/Table_Proofs3.v
theories/Table_Props.v
theories/Shown_Props.v
theories/Vtext_Model.v
theories/Vtext_Spec.v
theories/Vtext_Proofs.v
theories/Vtext_Proofs2.v
theories/Vtext_Proofs3.v
theories/Vtext_Props.v
theories/Dump_Model.v
theories/Dump_Spec.v
theories/Dump_Proofs.v
theories/Dump_Proofs2.v
theories/Dump_Props.v
theories/Selftest_Model.v
theories/Selftest_Proofs.v
theories/Selftest_Props.v
theories/Bbvtext_Model.v
theories/Bbvtext_Spec.v
theories/Bbvtext_Proofs.v
theories/Bbvtext_Props.v
theories/Pamdump_Model.v
theories/Pamdump_Spec.v
theories/Pamdump_Proofs.v
theories/Pamdump_Props.v
theories/Tlbtext_Proofs.v
theories/Tlbtext_Props.v
theories/Htcopy_Model.v
theories/Htcopy_Proofs.v
theories/Htcopy_Props.v
theories/Strict_Proofs.v
theories/Strict_Props.v
theories/Listdbg_Model.v
theories/Listdbg_Spec.v
theories/Listdbg_Proofs.v
theories/Listdbg_Props.v
theories/Tap_Model.v
theories/Tap_Spec.v
theories/Tap_Proofs.v
theories/Tap_Props.v
theories/Cstr_Model.v
theories/Cstr_Proofs.v
theories/Cstr_Props.v
theories/Tapnotes_Spec.v
theories/Tapnotes_Proofs.v
theories/Tapnotes_Props.v
theories/Regex_Proofs.v
theories/Regex_Props.v
theories/Httype_Model.v
theories/Httype_Proofs.v
theories/Httype_Props.v
theories/Argnum_Proofs.v
theories/Argnum_Props.v
