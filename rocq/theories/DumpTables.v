(** Tables of names that dump.cc prints (the .h files it includes for its switches). *)
From Coq Require Import Ascii String.
From Verif Require Import Base.
Open Scope Z_scope.

(** libpstack/dwarf/tags.h: tags of entries *)
Definition tagTable : list (Z * string) :=
  [(1, "DW_TAG_array_type"); (2, "DW_TAG_class_type"); (3, "DW_TAG_entry_point"); (4, "DW_TAG_enumeration_type"); (5, "DW_TAG_formal_parameter"); 
   (8, "DW_TAG_imported_declaration"); (0xa, "DW_TAG_label"); (0xb, "DW_TAG_lexical_block"); (0xd, "DW_TAG_member"); (0xf, "DW_TAG_pointer_type"); 
   (0x10, "DW_TAG_reference_type"); (0x11, "DW_TAG_compile_unit"); (0x12, "DW_TAG_string_type"); (0x13, "DW_TAG_structure_type"); 
   (0x15, "DW_TAG_subroutine_type"); (0x16, "DW_TAG_typedef"); (0x17, "DW_TAG_union_type"); (0x18, "DW_TAG_unspecified_parameters"); 
   (0x19, "DW_TAG_variant"); (0x1a, "DW_TAG_common_block"); (0x1b, "DW_TAG_common_inclusion"); (0x1c, "DW_TAG_inheritance"); 
   (0x1d, "DW_TAG_inlined_subroutine"); (0x1e, "DW_TAG_module"); (0x1f, "DW_TAG_ptr_to_member_type"); (0x20, "DW_TAG_set_type"); 
   (0x21, "DW_TAG_subrange_type"); (0x22, "DW_TAG_with_stmt"); (0x23, "DW_TAG_access_declaration"); (0x24, "DW_TAG_base_type"); 
   (0x25, "DW_TAG_catch_block"); (0x26, "DW_TAG_const_type"); (0x27, "DW_TAG_constant"); (0x28, "DW_TAG_enumerator"); (0x29, "DW_TAG_file_type"); 
   (0x2a, "DW_TAG_friend"); (0x2b, "DW_TAG_namelist"); (0x2c, "DW_TAG_namelist_item"); (0x2d, "DW_TAG_packed_type"); (0x2e, "DW_TAG_subprogram"); 
   (0x2f, "DW_TAG_template_type_param"); (0x30, "DW_TAG_template_value_param"); (0x31, "DW_TAG_thrown_type"); (0x32, "DW_TAG_try_block"); 
   (0x33, "DW_TAG_variant_part"); (0x34, "DW_TAG_variable"); (0x35, "DW_TAG_volatile_type"); (0x36, "DW_TAG_dwarf_procedure"); 
   (0x37, "DW_TAG_restrict_type"); (0x38, "DW_TAG_interface_type"); (0x39, "DW_TAG_namespace"); (0x3a, "DW_TAG_imported_module"); 
   (0x3b, "DW_TAG_unspecified_type"); (0x3c, "DW_TAG_partial_unit"); (0x3d, "DW_TAG_imported_unit"); (0x3f, "DW_TAG_condition"); 
   (0x40, "DW_TAG_shared_type"); (0x41, "DW_TAG_type_unit"); (0x42, "DW_TAG_rvalue_reference_type"); (0x43, "DW_TAG_template_alias"); 
   (0x44, "DW_TAG_coarray_type"); (0x45, "DW_TAG_generic_subrange"); (0x46, "DW_TAG_dynamic_type"); (0x47, "DW_TAG_atomic_type"); 
   (0x48, "DW_TAG_call_site"); (0x49, "DW_TAG_call_site_parameter"); (0x4a, "DW_TAG_skeleton_unit"); (0x4b, "DW_TAG_immutable_type"); 
   (0x4080, "DW_TAG_lo_user"); (0xffff, "DW_TAG_hi_user")]%string.

(** libpstack/dwarf/attr.h: attributes *)
Definition attrTable : list (Z * string) :=
  [(1, "DW_AT_sibling"); (2, "DW_AT_location"); (3, "DW_AT_name"); (9, "DW_AT_ordering"); (0xb, "DW_AT_byte_size"); (0xc, "DW_AT_bit_offset"); 
   (0xd, "DW_AT_bit_size"); (0x10, "DW_AT_stmt_list"); (0x11, "DW_AT_low_pc"); (0x12, "DW_AT_high_pc"); (0x13, "DW_AT_language"); (0x15, "DW_AT_discr"); 
   (0x16, "DW_AT_discr_value"); (0x17, "DW_AT_visibility"); (0x18, "DW_AT_import"); (0x19, "DW_AT_string_length"); (0x1a, "DW_AT_common_reference"); 
   (0x1b, "DW_AT_comp_dir"); (0x1c, "DW_AT_const_value"); (0x1d, "DW_AT_containing_type"); (0x1e, "DW_AT_default_value"); (0x20, "DW_AT_inline"); 
   (0x21, "DW_AT_is_optional"); (0x22, "DW_AT_lower_bound"); (0x25, "DW_AT_producer"); (0x27, "DW_AT_prototyped"); (0x2a, "DW_AT_return_addr"); 
   (0x2c, "DW_AT_start_scope"); (0x2e, "DW_AT_stride_size"); (0x2f, "DW_AT_upper_bound"); (0x31, "DW_AT_abstract_origin"); 
   (0x32, "DW_AT_accessibility"); (0x33, "DW_AT_address_class"); (0x34, "DW_AT_artificial"); (0x35, "DW_AT_base_types"); 
   (0x36, "DW_AT_calling_convention"); (0x37, "DW_AT_count"); (0x38, "DW_AT_data_member_location"); (0x39, "DW_AT_decl_column"); 
   (0x3a, "DW_AT_decl_file"); (0x3b, "DW_AT_decl_line"); (0x3c, "DW_AT_declaration"); (0x3d, "DW_AT_discr_list"); (0x3e, "DW_AT_encoding"); 
   (0x3f, "DW_AT_external"); (0x40, "DW_AT_frame_base"); (0x41, "DW_AT_friend"); (0x42, "DW_AT_identifier_case"); (0x43, "DW_AT_macro_info"); 
   (0x44, "DW_AT_namelist_item"); (0x45, "DW_AT_priority"); (0x46, "DW_AT_segment"); (0x47, "DW_AT_specification"); (0x48, "DW_AT_static_link"); 
   (0x49, "DW_AT_type"); (0x4a, "DW_AT_use_location"); (0x4b, "DW_AT_variable_parameter"); (0x4c, "DW_AT_virtuality"); 
   (0x4d, "DW_AT_vtable_elem_location"); (0x4e, "DW_AT_allocated"); (0x4f, "DW_AT_associated"); (0x50, "DW_AT_data_location"); 
   (0x51, "DW_AT_byte_stride"); (0x52, "DW_AT_entry_pc"); (0x53, "DW_AT_use_UTF8"); (0x54, "DW_AT_extension"); (0x55, "DW_AT_ranges"); 
   (0x56, "DW_AT_trampoline"); (0x57, "DW_AT_call_column"); (0x58, "DW_AT_call_file"); (0x59, "DW_AT_call_line"); (0x5a, "DW_AT_description"); 
   (0x5b, "DW_AT_binary_scale"); (0x5c, "DW_AT_decimal_scale"); (0x5d, "DW_AT_small"); (0x5e, "DW_AT_decimal_sign"); (0x5f, "DW_AT_digit_count"); 
   (0x60, "DW_AT_picture_string"); (0x61, "DW_AT_mutable"); (0x62, "DW_AT_threads_scaled"); (0x63, "DW_AT_explicit"); (0x64, "DW_AT_object_pointer"); 
   (0x65, "DW_AT_endianity"); (0x66, "DW_AT_elemental"); (0x67, "DW_AT_pure"); (0x68, "DW_AT_recursive"); (0x69, "DW_AT_signature"); 
   (0x6a, "DW_AT_main_subprogram"); (0x6b, "DW_AT_data_bit_offset"); (0x6c, "DW_AT_const_expr"); (0x6d, "DW_AT_enum_class"); 
   (0x6e, "DW_AT_linkage_name"); (0x6f, "DW_AT_string_length_bit_size"); (0x70, "DW_AT_string_length_byte_size"); (0x71, "DW_AT_rank"); 
   (0x72, "DW_AT_str_offsets_base"); (0x73, "DW_AT_addr_base"); (0x74, "DW_AT_rnglists_base"); (0x75, "DW_AT_reserved_0x75"); (0x76, "DW_AT_dwo_name"); 
   (0x77, "DW_AT_reference"); (0x78, "DW_AT_rvalue_reference"); (0x79, "DW_AT_macros"); (0x7a, "DW_AT_call_all_calls"); 
   (0x7b, "DW_AT_call_all_source_calls"); (0x7c, "DW_AT_call_all_tail_calls"); (0x7d, "DW_AT_call_return_pc"); (0x7e, "DW_AT_call_value"); 
   (0x7f, "DW_AT_call_origin"); (0x80, "DW_AT_call_parameter"); (0x81, "DW_AT_call_pc"); (0x82, "DW_AT_call_tail_call"); (0x83, "DW_AT_call_target"); 
   (0x84, "DW_AT_call_target_clobbered"); (0x85, "DW_AT_call_data_location"); (0x86, "DW_AT_call_data_value"); (0x87, "DW_AT_noreturn"); 
   (0x88, "DW_AT_alignment"); (0x89, "DW_AT_export_symbols"); (0x8a, "DW_AT_deleted"); (0x8b, "DW_AT_defaulted"); (0x8c, "DW_AT_loclists_base"); 
   (0x2000, "DW_AT_lo_user"); (0x3fff, "DW_AT_hi_user"); (0x2101, "DW_AT_sf_names"); (0x2102, "DW_AT_src_info"); (0x2103, "DW_AT_mac_info"); 
   (0x2104, "DW_AT_src_coords"); (0x2105, "DW_AT_body_begin"); (0x2106, "DW_AT_body_end"); (0x2107, "DW_AT_GNU_vector"); 
   (0x2108, "DW_AT_GNU_guarded_by"); (0x2109, "DW_AT_GNU_pt_guarded_by"); (0x210a, "DW_AT_GNU_guarded"); (0x210b, "DW_AT_GNU_pt_guarded"); 
   (0x210c, "DW_AT_GNU_locks_excluded"); (0x210d, "DW_AT_GNU_exclusive_locks_required"); (0x210e, "DW_AT_GNU_shared_locks_required"); 
   (0x210f, "DW_AT_GNU_odr_signature"); (0x2110, "DW_AT_GNU_template_name"); (0x2111, "DW_AT_GNU_call_site_value"); 
   (0x2112, "DW_AT_GNU_call_site_data_value"); (0x2113, "DW_AT_GNU_call_site_target"); (0x2114, "DW_AT_GNU_call_site_target_clobbered"); 
   (0x2115, "DW_AT_GNU_tail_call"); (0x2116, "DW_AT_GNU_all_tail_call_sites"); (0x2117, "DW_AT_GNU_all_call_sites"); 
   (0x2118, "DW_AT_GNU_all_source_call_sites"); (0x2119, "DW_AT_GNU_macros"); (0x211a, "DW_AT_GNU_deleted"); (0x2130, "DW_AT_GNU_dwo_name"); 
   (0x2131, "DW_AT_GNU_dwo_id"); (0x2132, "DW_AT_GNU_ranges_base"); (0x2133, "DW_AT_GNU_addr_base"); (0x2134, "DW_AT_GNU_pubnames"); 
   (0x2135, "DW_AT_GNU_pubtypes"); (0x2136, "DW_AT_GNU_discriminator"); (0x2137, "DW_AT_GNU_locviews"); (0x2138, "DW_AT_GNU_entry_view")]%string.

(** libpstack/dwarf/forms.h: forms *)
Definition formTable : list (Z * string) :=
  [(1, "DW_FORM_addr"); (3, "DW_FORM_block2"); (4, "DW_FORM_block4"); (5, "DW_FORM_data2"); (6, "DW_FORM_data4"); (7, "DW_FORM_data8"); 
   (8, "DW_FORM_string"); (9, "DW_FORM_block"); (0xa, "DW_FORM_block1"); (0xb, "DW_FORM_data1"); (0xc, "DW_FORM_flag"); (0xd, "DW_FORM_sdata"); 
   (0xe, "DW_FORM_strp"); (0xf, "DW_FORM_udata"); (0x10, "DW_FORM_ref_addr"); (0x11, "DW_FORM_ref1"); (0x12, "DW_FORM_ref2"); (0x13, "DW_FORM_ref4"); 
   (0x14, "DW_FORM_ref8"); (0x15, "DW_FORM_ref_udata"); (0x16, "DW_FORM_indirect"); (0x17, "DW_FORM_sec_offset"); (0x18, "DW_FORM_exprloc"); 
   (0x19, "DW_FORM_flag_present"); (0x1a, "DW_FORM_strx"); (0x1b, "DW_FORM_addrx"); (0x1c, "DW_FORM_ref_sup4"); (0x1d, "DW_FORM_strp_sup"); 
   (0x1e, "DW_FORM_data16"); (0x1f, "DW_FORM_line_strp"); (0x20, "DW_FORM_ref_sig8"); (0x21, "DW_FORM_implicit_const"); (0x22, "DW_FORM_loclistx"); 
   (0x23, "DW_FORM_rnglistx"); (0x24, "DW_FORM_ref_sup8"); (0x25, "DW_FORM_strx1"); (0x26, "DW_FORM_strx2"); (0x27, "DW_FORM_strx3"); 
   (0x28, "DW_FORM_strx4"); (0x29, "DW_FORM_addrx1"); (0x2a, "DW_FORM_addrx2"); (0x2b, "DW_FORM_addrx3"); (0x2c, "DW_FORM_addrx4"); 
   (0x1f01, "DW_FORM_GNU_addr_index"); (0x1f02, "DW_FORM_GNU_str_index"); (0x1f21, "DW_FORM_GNU_strp_alt"); (0x1f20, "DW_FORM_GNU_ref_alt")]%string.

(** libpstack/dwarf/encodings.h: encodings of base types *)
Definition ateTable : list (Z * string) :=
  [(1, "DW_ATE_address"); (2, "DW_ATE_boolean"); (3, "DW_ATE_complex_float"); (4, "DW_ATE_float"); (5, "DW_ATE_signed"); (6, "DW_ATE_signed_char"); 
   (7, "DW_ATE_unsigned"); (8, "DW_ATE_unsigned_char"); (9, "DW_ATE_imaginary_float"); (0xa, "DW_ATE_packed_decimal"); (0xb, "DW_ATE_numeric_string"); 
   (0xc, "DW_ATE_edited"); (0xd, "DW_ATE_signed_fixed"); (0xe, "DW_ATE_unsigned_fixed"); (0xf, "DW_ATE_decimal_float"); (0x10, "DW_ATE_UTF"); 
   (0x11, "DW_ATE_UCS"); (0x12, "DW_ATE_ASCII"); (0x80, "DW_ATE_lo_user"); (0xff, "DW_ATE_hi_user")]%string.

(** libpstack/dwarf/unittype.h: unit types *)
Definition utTable : list (Z * string) :=
  [(1, "DW_UT_compile"); (2, "DW_UT_type"); (3, "DW_UT_partial"); (4, "DW_UT_skeleton"); (5, "DW_UT_split_compile"); (6, "DW_UT_split_type"); 
   (0x80, "DW_UT_lo_user"); (0xff, "DW_UT_hi_user")]%string.

(** libpstack/elf/dyntag.h: tags of the dynamic section *)
Definition dynTable : list (Z * string) :=
  [(0, "DT_NULL"); (1, "DT_NEEDED"); (2, "DT_PLTRELSZ"); (3, "DT_PLTGOT"); (4, "DT_HASH"); (5, "DT_STRTAB"); (6, "DT_SYMTAB"); (7, "DT_RELA"); 
   (8, "DT_RELASZ"); (9, "DT_RELAENT"); (0xa, "DT_STRSZ"); (0xb, "DT_SYMENT"); (0xc, "DT_INIT"); (0xd, "DT_FINI"); (0xe, "DT_SONAME"); 
   (0xf, "DT_RPATH"); (0x10, "DT_SYMBOLIC"); (0x11, "DT_REL"); (0x12, "DT_RELSZ"); (0x13, "DT_RELENT"); (0x14, "DT_PLTREL"); (0x15, "DT_DEBUG"); 
   (0x16, "DT_TEXTREL"); (0x17, "DT_JMPREL"); (0x18, "DT_BIND_NOW"); (0x19, "DT_INIT_ARRAY"); (0x1a, "DT_FINI_ARRAY"); (0x1b, "DT_INIT_ARRAYSZ"); 
   (0x1c, "DT_FINI_ARRAYSZ"); (0x1d, "DT_RUNPATH"); (0x1e, "DT_FLAGS"); (0x20, "DT_ENCODING"); (0x21, "DT_PREINIT_ARRAYSZ"); (0x6000000d, "DT_LOOS"); 
   (0x6ffff000, "DT_HIOS"); (0x6ffffd00, "DT_VALRNGLO"); (0x6ffffdff, "DT_VALRNGHI"); (0x6ffffe00, "DT_ADDRRNGLO"); (0x6ffffeff, "DT_ADDRRNGHI"); 
   (0x6ffffff0, "DT_VERSYM"); (0x6ffffff9, "DT_RELACOUNT"); (0x6ffffffa, "DT_RELCOUNT"); (0x6ffffffb, "DT_FLAGS_1"); (0x6ffffffc, "DT_VERDEF"); 
   (0x6ffffffd, "DT_VERDEFNUM"); (0x6ffffffe, "DT_VERNEED"); (0x6fffffff, "DT_VERNEEDNUM"); (0x70000000, "DT_LOPROC"); (0x7fffffff, "DT_HIPROC")]%string.

(** libpstack/elf/auxv.h: types of the auxiliary vector (with the headers of Linux 6 all of them are defined) *)
Definition auxvTable : list (Z * string) :=
  [(0, "AT_NULL"); (1, "AT_IGNORE"); (2, "AT_EXECFD"); (3, "AT_PHDR"); (4, "AT_PHENT"); (5, "AT_PHNUM"); (6, "AT_PAGESZ"); (7, "AT_BASE"); 
   (8, "AT_FLAGS"); (9, "AT_ENTRY"); (0xa, "AT_NOTELF"); (0xb, "AT_UID"); (0xc, "AT_EUID"); (0xd, "AT_GID"); (0xe, "AT_EGID"); (0xf, "AT_PLATFORM"); 
   (0x10, "AT_HWCAP"); (0x11, "AT_CLKTCK"); (0x12, "AT_FPUCW"); (0x13, "AT_DCACHEBSIZE"); (0x14, "AT_ICACHEBSIZE"); (0x15, "AT_UCACHEBSIZE"); 
   (0x16, "AT_IGNOREPPC"); (0x17, "AT_SECURE"); (0x18, "AT_BASE_PLATFORM"); (0x19, "AT_RANDOM"); (0x1a, "AT_HWCAP2"); (0x1b, "AT_RSEQ_FEATURE_SIZE"); 
   (0x1c, "AT_RSEQ_ALIGN"); (0x1d, "AT_HWCAP3"); (0x1e, "AT_HWCAP4"); (0x1f, "AT_EXECFN"); (0x20, "AT_SYSINFO"); (0x21, "AT_SYSINFO_EHDR"); 
   (0x22, "AT_L1I_CACHESHAPE"); (0x23, "AT_L1D_CACHESHAPE"); (0x24, "AT_L2_CACHESHAPE"); (0x25, "AT_L3_CACHESHAPE"); (0x28, "AT_L1I_CACHESIZE"); 
   (0x29, "AT_L1I_CACHEGEOMETRY"); (0x2a, "AT_L1D_CACHESIZE"); (0x2b, "AT_L1D_CACHEGEOMETRY"); (0x2c, "AT_L2_CACHESIZE"); (0x2d, "AT_L2_CACHEGEOMETRY"); 
   (0x2e, "AT_L3_CACHESIZE"); (0x2f, "AT_L3_CACHEGEOMETRY"); (0x33, "AT_MINSIGSTKSZ")]%string.

(** libpstack/elf/sectype.h: section types *)
Definition secTable : list (Z * string) :=
  [(0, "SHT_NULL"); (1, "SHT_PROGBITS"); (2, "SHT_SYMTAB"); (3, "SHT_STRTAB"); (4, "SHT_RELA"); (5, "SHT_HASH"); (6, "SHT_DYNAMIC"); (7, "SHT_NOTE"); 
   (8, "SHT_NOBITS"); (9, "SHT_REL"); (0xa, "SHT_SHLIB"); (0xb, "SHT_DYNSYM"); (0xe, "SHT_INIT_ARRAY"); (0xf, "SHT_FINI_ARRAY"); 
   (0x10, "SHT_PREINIT_ARRAY"); (0x11, "SHT_GROUP"); (0x12, "SHT_SYMTAB_SHNDX"); (0x13, "SHT_NUM"); (0x60000000, "SHT_LOOS"); 
   (0x6ffffff5, "SHT_GNU_ATTRIBUTES"); (0x6ffffff6, "SHT_GNU_HASH"); (0x6ffffff7, "SHT_GNU_LIBLIST"); (0x6ffffff8, "SHT_CHECKSUM"); 
   (0x6ffffffa, "SHT_SUNW_move"); (0x6ffffffb, "SHT_SUNW_COMDAT"); (0x6ffffffc, "SHT_SUNW_syminfo"); (0x6ffffffd, "SHT_GNU_verdef"); 
   (0x6ffffffe, "SHT_GNU_verneed"); (0x6fffffff, "SHT_GNU_versym"); (0x70000000, "SHT_LOPROC"); (0x7fffffff, "SHT_HIPROC"); (0x80000000, "SHT_LOUSER"); 
   (0x8fffffff, "SHT_HIUSER")]%string.

