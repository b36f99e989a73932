(** Specification: the dump of a unit's entries as a document. *)
From Coq Require Import Ascii String Permutation.
From Verif Require Import Base CfiSpec LinesSpec Die DieSpec DieAttr DieAttrSpec ArgsSpec FrameTextSpec JsonDocSpec.
(* from Die only the type [dval] of stored values; from DieAttr only the type [entry] *)
Open Scope Z_scope.

(** Tags, DWARF 5 table 7.3 (0x2f and 0x30 as they were spelled in version 2) *)
Definition stdTags : list (Z * string) :=
  [(0x01, "DW_TAG_array_type"); (0x02, "DW_TAG_class_type"); (0x03, "DW_TAG_entry_point"); (0x04, "DW_TAG_enumeration_type"); 
   (0x05, "DW_TAG_formal_parameter"); (0x08, "DW_TAG_imported_declaration"); (0x0a, "DW_TAG_label"); (0x0b, "DW_TAG_lexical_block"); 
   (0x0d, "DW_TAG_member"); (0x0f, "DW_TAG_pointer_type"); (0x10, "DW_TAG_reference_type"); (0x11, "DW_TAG_compile_unit"); (0x12, "DW_TAG_string_type"); 
   (0x13, "DW_TAG_structure_type"); (0x15, "DW_TAG_subroutine_type"); (0x16, "DW_TAG_typedef"); (0x17, "DW_TAG_union_type"); 
   (0x18, "DW_TAG_unspecified_parameters"); (0x19, "DW_TAG_variant"); (0x1a, "DW_TAG_common_block"); (0x1b, "DW_TAG_common_inclusion"); 
   (0x1c, "DW_TAG_inheritance"); (0x1d, "DW_TAG_inlined_subroutine"); (0x1e, "DW_TAG_module"); (0x1f, "DW_TAG_ptr_to_member_type"); 
   (0x20, "DW_TAG_set_type"); (0x21, "DW_TAG_subrange_type"); (0x22, "DW_TAG_with_stmt"); (0x23, "DW_TAG_access_declaration"); 
   (0x24, "DW_TAG_base_type"); (0x25, "DW_TAG_catch_block"); (0x26, "DW_TAG_const_type"); (0x27, "DW_TAG_constant"); (0x28, "DW_TAG_enumerator"); 
   (0x29, "DW_TAG_file_type"); (0x2a, "DW_TAG_friend"); (0x2b, "DW_TAG_namelist"); (0x2c, "DW_TAG_namelist_item"); (0x2d, "DW_TAG_packed_type"); 
   (0x2e, "DW_TAG_subprogram"); (0x2f, "DW_TAG_template_type_param"); (0x30, "DW_TAG_template_value_param"); (0x31, "DW_TAG_thrown_type"); 
   (0x32, "DW_TAG_try_block"); (0x33, "DW_TAG_variant_part"); (0x34, "DW_TAG_variable"); (0x35, "DW_TAG_volatile_type"); 
   (0x36, "DW_TAG_dwarf_procedure"); (0x37, "DW_TAG_restrict_type"); (0x38, "DW_TAG_interface_type"); (0x39, "DW_TAG_namespace"); 
   (0x3a, "DW_TAG_imported_module"); (0x3b, "DW_TAG_unspecified_type"); (0x3c, "DW_TAG_partial_unit"); (0x3d, "DW_TAG_imported_unit"); 
   (0x3f, "DW_TAG_condition"); (0x40, "DW_TAG_shared_type"); (0x41, "DW_TAG_type_unit"); (0x42, "DW_TAG_rvalue_reference_type"); 
   (0x43, "DW_TAG_template_alias"); (0x44, "DW_TAG_coarray_type"); (0x45, "DW_TAG_generic_subrange"); (0x46, "DW_TAG_dynamic_type"); 
   (0x47, "DW_TAG_atomic_type"); (0x48, "DW_TAG_call_site"); (0x49, "DW_TAG_call_site_parameter"); (0x4a, "DW_TAG_skeleton_unit"); 
   (0x4b, "DW_TAG_immutable_type")]%string.

(** Attributes, DWARF 5 table 7.5 (0x0c, 0x2e and 0x46 with their names in earlier versions), and the GNU extensions *)
Definition stdAttrs : list (Z * string) :=
  [(0x01, "DW_AT_sibling"); (0x02, "DW_AT_location"); (0x03, "DW_AT_name"); (0x09, "DW_AT_ordering"); (0x0b, "DW_AT_byte_size"); 
   (0x0c, "DW_AT_bit_offset"); (0x0d, "DW_AT_bit_size"); (0x10, "DW_AT_stmt_list"); (0x11, "DW_AT_low_pc"); (0x12, "DW_AT_high_pc"); 
   (0x13, "DW_AT_language"); (0x15, "DW_AT_discr"); (0x16, "DW_AT_discr_value"); (0x17, "DW_AT_visibility"); (0x18, "DW_AT_import"); 
   (0x19, "DW_AT_string_length"); (0x1a, "DW_AT_common_reference"); (0x1b, "DW_AT_comp_dir"); (0x1c, "DW_AT_const_value"); 
   (0x1d, "DW_AT_containing_type"); (0x1e, "DW_AT_default_value"); (0x20, "DW_AT_inline"); (0x21, "DW_AT_is_optional"); (0x22, "DW_AT_lower_bound"); 
   (0x25, "DW_AT_producer"); (0x27, "DW_AT_prototyped"); (0x2a, "DW_AT_return_addr"); (0x2c, "DW_AT_start_scope"); (0x2e, "DW_AT_stride_size"); 
   (0x2f, "DW_AT_upper_bound"); (0x31, "DW_AT_abstract_origin"); (0x32, "DW_AT_accessibility"); (0x33, "DW_AT_address_class"); 
   (0x34, "DW_AT_artificial"); (0x35, "DW_AT_base_types"); (0x36, "DW_AT_calling_convention"); (0x37, "DW_AT_count"); 
   (0x38, "DW_AT_data_member_location"); (0x39, "DW_AT_decl_column"); (0x3a, "DW_AT_decl_file"); (0x3b, "DW_AT_decl_line"); (0x3c, "DW_AT_declaration"); 
   (0x3d, "DW_AT_discr_list"); (0x3e, "DW_AT_encoding"); (0x3f, "DW_AT_external"); (0x40, "DW_AT_frame_base"); (0x41, "DW_AT_friend"); 
   (0x42, "DW_AT_identifier_case"); (0x43, "DW_AT_macro_info"); (0x44, "DW_AT_namelist_item"); (0x45, "DW_AT_priority"); (0x46, "DW_AT_segment"); 
   (0x47, "DW_AT_specification"); (0x48, "DW_AT_static_link"); (0x49, "DW_AT_type"); (0x4a, "DW_AT_use_location"); (0x4b, "DW_AT_variable_parameter"); 
   (0x4c, "DW_AT_virtuality"); (0x4d, "DW_AT_vtable_elem_location"); (0x4e, "DW_AT_allocated"); (0x4f, "DW_AT_associated"); 
   (0x50, "DW_AT_data_location"); (0x51, "DW_AT_byte_stride"); (0x52, "DW_AT_entry_pc"); (0x53, "DW_AT_use_UTF8"); (0x54, "DW_AT_extension"); 
   (0x55, "DW_AT_ranges"); (0x56, "DW_AT_trampoline"); (0x57, "DW_AT_call_column"); (0x58, "DW_AT_call_file"); (0x59, "DW_AT_call_line"); 
   (0x5a, "DW_AT_description"); (0x5b, "DW_AT_binary_scale"); (0x5c, "DW_AT_decimal_scale"); (0x5d, "DW_AT_small"); (0x5e, "DW_AT_decimal_sign"); 
   (0x5f, "DW_AT_digit_count"); (0x60, "DW_AT_picture_string"); (0x61, "DW_AT_mutable"); (0x62, "DW_AT_threads_scaled"); (0x63, "DW_AT_explicit"); 
   (0x64, "DW_AT_object_pointer"); (0x65, "DW_AT_endianity"); (0x66, "DW_AT_elemental"); (0x67, "DW_AT_pure"); (0x68, "DW_AT_recursive"); 
   (0x69, "DW_AT_signature"); (0x6a, "DW_AT_main_subprogram"); (0x6b, "DW_AT_data_bit_offset"); (0x6c, "DW_AT_const_expr"); (0x6d, "DW_AT_enum_class"); 
   (0x6e, "DW_AT_linkage_name"); (0x6f, "DW_AT_string_length_bit_size"); (0x70, "DW_AT_string_length_byte_size"); (0x71, "DW_AT_rank"); 
   (0x72, "DW_AT_str_offsets_base"); (0x73, "DW_AT_addr_base"); (0x74, "DW_AT_rnglists_base"); (0x76, "DW_AT_dwo_name"); (0x77, "DW_AT_reference"); 
   (0x78, "DW_AT_rvalue_reference"); (0x79, "DW_AT_macros"); (0x7a, "DW_AT_call_all_calls"); (0x7b, "DW_AT_call_all_source_calls"); 
   (0x7c, "DW_AT_call_all_tail_calls"); (0x7d, "DW_AT_call_return_pc"); (0x7e, "DW_AT_call_value"); (0x7f, "DW_AT_call_origin"); 
   (0x80, "DW_AT_call_parameter"); (0x81, "DW_AT_call_pc"); (0x82, "DW_AT_call_tail_call"); (0x83, "DW_AT_call_target"); 
   (0x84, "DW_AT_call_target_clobbered"); (0x85, "DW_AT_call_data_location"); (0x86, "DW_AT_call_data_value"); (0x87, "DW_AT_noreturn"); 
   (0x88, "DW_AT_alignment"); (0x89, "DW_AT_export_symbols"); (0x8a, "DW_AT_deleted"); (0x8b, "DW_AT_defaulted"); (0x8c, "DW_AT_loclists_base");
   (0x2101, "DW_AT_sf_names"); (0x2102, "DW_AT_src_info"); (0x2103, "DW_AT_mac_info"); (0x2104, "DW_AT_src_coords"); (0x2105, "DW_AT_body_begin"); 
   (0x2106, "DW_AT_body_end"); (0x2107, "DW_AT_GNU_vector"); (0x2108, "DW_AT_GNU_guarded_by"); (0x2109, "DW_AT_GNU_pt_guarded_by"); 
   (0x210a, "DW_AT_GNU_guarded"); (0x210b, "DW_AT_GNU_pt_guarded"); (0x210c, "DW_AT_GNU_locks_excluded"); 
   (0x210d, "DW_AT_GNU_exclusive_locks_required"); (0x210e, "DW_AT_GNU_shared_locks_required"); (0x210f, "DW_AT_GNU_odr_signature"); 
   (0x2110, "DW_AT_GNU_template_name"); (0x2111, "DW_AT_GNU_call_site_value"); (0x2112, "DW_AT_GNU_call_site_data_value"); 
   (0x2113, "DW_AT_GNU_call_site_target"); (0x2114, "DW_AT_GNU_call_site_target_clobbered"); (0x2115, "DW_AT_GNU_tail_call"); 
   (0x2116, "DW_AT_GNU_all_tail_call_sites"); (0x2117, "DW_AT_GNU_all_call_sites"); (0x2118, "DW_AT_GNU_all_source_call_sites"); 
   (0x2119, "DW_AT_GNU_macros"); (0x211a, "DW_AT_GNU_deleted"); (0x2130, "DW_AT_GNU_dwo_name"); (0x2131, "DW_AT_GNU_dwo_id"); 
   (0x2132, "DW_AT_GNU_ranges_base"); (0x2133, "DW_AT_GNU_addr_base"); (0x2134, "DW_AT_GNU_pubnames"); (0x2135, "DW_AT_GNU_pubtypes"); 
   (0x2136, "DW_AT_GNU_discriminator"); (0x2137, "DW_AT_GNU_locviews"); (0x2138, "DW_AT_GNU_entry_view")]%string.

(** Forms, DWARF 5 table 7.6 and the GNU extensions *)
Definition stdForms : list (Z * string) :=
  [(0x01, "DW_FORM_addr"); (0x03, "DW_FORM_block2"); (0x04, "DW_FORM_block4"); (0x05, "DW_FORM_data2"); (0x06, "DW_FORM_data4"); 
   (0x07, "DW_FORM_data8"); (0x08, "DW_FORM_string"); (0x09, "DW_FORM_block"); (0x0a, "DW_FORM_block1"); (0x0b, "DW_FORM_data1"); 
   (0x0c, "DW_FORM_flag"); (0x0d, "DW_FORM_sdata"); (0x0e, "DW_FORM_strp"); (0x0f, "DW_FORM_udata"); (0x10, "DW_FORM_ref_addr"); (0x11, "DW_FORM_ref1"); 
   (0x12, "DW_FORM_ref2"); (0x13, "DW_FORM_ref4"); (0x14, "DW_FORM_ref8"); (0x15, "DW_FORM_ref_udata"); (0x16, "DW_FORM_indirect"); 
   (0x17, "DW_FORM_sec_offset"); (0x18, "DW_FORM_exprloc"); (0x19, "DW_FORM_flag_present"); (0x1a, "DW_FORM_strx"); (0x1b, "DW_FORM_addrx"); 
   (0x1c, "DW_FORM_ref_sup4"); (0x1d, "DW_FORM_strp_sup"); (0x1e, "DW_FORM_data16"); (0x1f, "DW_FORM_line_strp"); (0x20, "DW_FORM_ref_sig8"); 
   (0x21, "DW_FORM_implicit_const"); (0x22, "DW_FORM_loclistx"); (0x23, "DW_FORM_rnglistx"); (0x24, "DW_FORM_ref_sup8"); (0x25, "DW_FORM_strx1"); 
   (0x26, "DW_FORM_strx2"); (0x27, "DW_FORM_strx3"); (0x28, "DW_FORM_strx4"); (0x29, "DW_FORM_addrx1"); (0x2a, "DW_FORM_addrx2"); 
   (0x2b, "DW_FORM_addrx3"); (0x2c, "DW_FORM_addrx4"); (0x1f01, "DW_FORM_GNU_addr_index"); (0x1f02, "DW_FORM_GNU_str_index"); 
   (0x1f20, "DW_FORM_GNU_ref_alt"); (0x1f21, "DW_FORM_GNU_strp_alt")]%string.

(** Encodings of base types, DWARF 5 table 7.11 *)
Definition stdEncodings : list (Z * string) :=
  [(0x01, "DW_ATE_address"); (0x02, "DW_ATE_boolean"); (0x03, "DW_ATE_complex_float"); (0x04, "DW_ATE_float"); (0x05, "DW_ATE_signed"); 
   (0x06, "DW_ATE_signed_char"); (0x07, "DW_ATE_unsigned"); (0x08, "DW_ATE_unsigned_char"); (0x09, "DW_ATE_imaginary_float"); 
   (0x0a, "DW_ATE_packed_decimal"); (0x0b, "DW_ATE_numeric_string"); (0x0c, "DW_ATE_edited"); (0x0d, "DW_ATE_signed_fixed"); 
   (0x0e, "DW_ATE_unsigned_fixed"); (0x0f, "DW_ATE_decimal_float"); (0x10, "DW_ATE_UTF"); (0x11, "DW_ATE_UCS"); (0x12, "DW_ATE_ASCII")]%string.

Definition called (t : list (Z * string)) (c : Z) (s : list Z) : Prop := exists n, In (c, n) t /\ s = lit n.

(** A tag by its name; one of a vendor's by its number. *)
Definition tagShown (c : Z) (x : jvalue) : Prop := (exists s, called stdTags c s /\ x = XStr s) \/ (0x4080 < c < 0xffff /\ x = XNum c).

Section Docs.
(** .debug_info, .debug_str, .debug_line_str, the alternate file's .debug_str, and the strings by index of the unit at an offset (C111) *)
Context (info str lineStr : list Z) (alt : option (list Z)) (sx : Z -> Z -> res (list Z)).
(** a string that ends with a zero byte at an offset of a section *)
Definition stringAt (sec : list Z) (off : Z) (s : list Z) : Prop := exists pre post, sec = pre ++ cstr s ++ post /\ zlen pre = off /\ isText s.
(** the string that a stored value of a string form designates in the unit at [unit]: strp, line_strp, string, GNU_strp_alt, strx* *)
Definition stringIs (unit form w : Z) (s : list Z) : Prop :=
  (form = 0x0e /\ stringAt str w s) \/ (form = 0x1f /\ stringAt lineStr w s) \/ (form = 0x08 /\ stringAt info w s) \/
  (form = 0x1f21 /\ exists a, alt = Some a /\ stringAt a w s) \/ (In form [0x1a; 0x25; 0x26; 0x27; 0x28] /\ sx unit w = Ok s).

(** What is shown for the value [v], which is at [off] in the section, of the attribute [name].  An encoding is shown by its name. *)
Inductive valueDoc (f : fmt) (unit name off : Z) : aval -> jvalue -> Prop :=
| VDEncoding v n s : name = 0x3e -> (exists k, v = AFixed (formOfA v) k n /\ In (formOfA v) [0x0b; 0x05; 0x06; 0x07]) \/ v = ALeb 0x0f n ->
    called stdEncodings n s -> valueDoc f unit name off v (XStr s)
| VDConst form k n : name <> 0x3e -> In form [0x0b; 0x05; 0x06; 0x07] -> valueDoc f unit name off (AFixed form k n) (XNum n)
| VDUdata n : name <> 0x3e -> valueDoc f unit name off (ALeb 0x0f n) (XNum n)
| VDSdata n : name <> 0x3e -> valueDoc f unit name off (ASdata n) (XNum n)
| VDImplicit n : name <> 0x3e -> valueDoc f unit name off (AImplicit n) (XNum n)
| VDAddr n : name <> 0x3e -> valueDoc f unit name off (AAddr n) (XNum n)
| VDOffset n : name <> 0x3e -> valueDoc f unit name off (AOffset 0x17 n) (XNum n)
| VDRef form k n : name <> 0x3e -> In form [0x12; 0x13; 0x14] -> valueDoc f unit name off (AFixed form k n) (XNum n)
| VDRefUdata n : name <> 0x3e -> valueDoc f unit name off (ALeb 0x15 n) (XNum n)
| VDRefAddr form n : name <> 0x3e -> valueDoc f unit name off (ARefAddr form n) (XNum n)
| VDString s t : name <> 0x3e -> plainText s t -> valueDoc f unit name off (AString s) (XStr t)
| VDStrp form n s t : name <> 0x3e -> stringIs unit form n s -> plainText s t -> valueDoc f unit name off (AOffset form n) (XStr t)
| VDStrx form k n s t : name <> 0x3e -> stringIs unit form n s -> plainText s t -> valueDoc f unit name off (AFixed form k n) (XStr t)
| VDStrxU form n s t : name <> 0x3e -> stringIs unit form n s -> plainText s t -> valueDoc f unit name off (ALeb form n) (XStr t)
| VDBlock form b : name <> 0x3e -> valueDoc f unit name off (ABlock form b) (XObj [(lit "offset", XNum (off + zlen (blockLen form (zlen b)))); (lit "length", XNum (zlen b))])
| VDFlag b : name <> 0x3e -> valueDoc f unit name off (AFlag b) (XBool (negb (b =? 0)))
| VDPresent : name <> 0x3e -> valueDoc f unit name off APresent (XBool true).
(** An attribute: its standard name, its form's name, its value. *)
Definition attrDoc (f : fmt) (unit : Z) (a : Z * Z * aval) (m : list Z * jvalue) : Prop :=
  let '(name, off, v) := a in
  called stdAttrs name (fst m) /\ exists fs x, called stdForms (formOfA v) fs /\ valueDoc f unit name off v x /\
  snd m = XObj [(lit "form", XStr fs); (lit "value", x)].
(** the attributes of an entry whose values begin at [off]: name, where the value is, value *)
Fixpoint attrsAt (f : fmt) (off : Z) (attrs : list (Z * Z * Z)) (vs : list aval) : list (Z * Z * aval) :=
  match attrs, vs with
  | (n, _, _) :: ar, v :: vr => (n, off, v) :: attrsAt f (off + zlen (encodeA f v)) ar vr
  | _, _ => []
  end.
(** The name of an entry: its DW_AT_name, or that of the entry it refers to (C26); empty if there is none. *)
Definition entryName (ents : Z -> option entry) (o : Z) (s : list Z) : Prop :=
  exists r, Lookup ents 0x03 o r /\
    match r with None => s = [] | Some (o', form, v) => exists e' w, ents o' = Some e' /\ v = VWord w /\ stringIs (eUnit e') form w s end.
(** An entry at [off], whose parent is at [par], and what is below it. *)
Inductive treeDoc (ents : Z -> option entry) (f : fmt) (ds : list sdecl) (base : Z) : Z -> Z -> dtree -> jvalue -> Prop :=
| TreeDoc par off c vs ks d nm nt tag attrs ms kids :
    declOf ds c = Some d -> entryName ents off nm -> plainText nm nt -> tagShown (sdTag d) tag ->
    Permutation attrs (attrsAt f (off + zlen (uleb c)) (sdAttrs d) vs) -> Forall2 (attrDoc f base) attrs ms ->
    kidsDoc ents f ds base off (off + headLen f (DT c vs ks)) ks kids ->
    treeDoc ents f ds base par off (DT c vs ks)
      (XObj ([(lit "name", XStr nt); (lit "type", tag); (lit "cuOffset", XNum (off - base)); (lit "offset", XNum off); (lit "parent", XNum par); (lit "attributes", XObj ms)]
             ++ if sdKids d then [(lit "children", XArr kids)] else []))
with kidsDoc (ents : Z -> option entry) (f : fmt) (ds : list sdecl) (base : Z) : Z -> Z -> list dtree -> list jvalue -> Prop :=
| KidsNil par off : kidsDoc ents f ds base par off [] []
| KidsCons par off t ts x xs : treeDoc ents f ds base par off t x -> kidsDoc ents f ds base par (off + zlen (encodeT f ds t)) ts xs ->
    kidsDoc ents f ds base par off (t :: ts) (x :: xs).

(** What can be shown: tags, attributes and forms in the standard's tables, values of the forms above, names that are plain text. *)
Definition showableValue (f : fmt) (unit name off : Z) (v : aval) : Prop := exists x, valueDoc f unit name off v x.
Definition showableEntry (ents : Z -> option entry) (f : fmt) (ds : list sdecl) (base o : Z) (x : dtree) : Prop :=
  exists d, declOf ds (tCode x) = Some d /\ (exists x, tagShown (sdTag d) x) /\
    Forall (fun a => let '(n, off, v) := a in (exists s, called stdAttrs n s) /\ (exists s, called stdForms (formOfA v) s) /\ showableValue f base n off v) (attrsAt f (o + zlen (uleb (tCode x))) (sdAttrs d) (tVals x)) /\
    exists nm nt, entryName ents o nm /\ plainText nm nt.
(** The entries by offset, of which those of this unit are the tree's. *)
Definition entriesOf (ents : Z -> option entry) (f : fmt) (ds : list sdecl) (base fin root : Z) (t : dtree) : Prop :=
  (forall o e, ents o = Some e -> wfEntry e /\ 0 <= eUnit e) /\ (forall o e, ents o = Some e -> hasNo e 0x31 \/ hasNo e 0x47) /\
  (forall o e, ents o = Some e -> base <= o < fin -> exists x, inTree f ds root t o x).
End Docs.
