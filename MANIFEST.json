{
 "claims": [
  {
   "property": "C01",
   "status": "proved",
   "theorems": [
    "C01_prep_records_c_layout",
    "C01_struct_offsets",
    "C01_layout_determined"
   ],
   "note": "for heaps of type objects with power-of-two alignments and sizes below 2^width"
  },
  {
   "property": "C02",
   "status": "proved",
   "theorems": [
    "C02_history_preserves_layouts",
    "C02_history_independent"
   ],
   "note": ""
  },
  {
   "property": "C03",
   "status": "partial",
   "theorems": [
    "C03_rejection_sticky_partial",
    "C03_rejection_sticky_refuted"
   ],
   "note": "The claim is false of the code (witness struct {int, struct {}}); proved for the types invalid along their first members, the only ones whose rejection leaves no partial size behind."
  },
  {
   "property": "C04",
   "status": "proved",
   "theorems": [
    "C04_x86_64_status",
    "C04_complex_return_rejected",
    "C04_prepared_signature",
    "C04_generic_status"
   ],
   "note": "signatures of C types (predefined scalars, complex numbers, structs nested to any depth, laid out or not); C04_generic_status needs no such restriction and covers every target"
  },
  {
   "property": "C05",
   "status": "partial",
   "theorems": [
    "C05_variadic_status_partial",
    "C05_private_float_refuted"
   ],
   "note": "float is recognised by address; the theorem assumes the predefined object is used, the refutation shows the assumption is needed."
  },
  {
   "property": "C06",
   "status": "proved",
   "theorems": [
    "C06_terminates"
   ],
   "note": ""
  },
  {
   "property": "C07",
   "status": "proved",
   "theorems": [
    "C07_classification"
   ],
   "note": "natural types: scalars, complex types and structs of them nested to any depth, with C layout"
  },
  {
   "property": "C08",
   "status": "proved",
   "theorems": [
    "C08_class_buffer"
   ],
   "note": ""
  },
  {
   "property": "C09",
   "status": "proved",
   "theorems": [
    "C09_call_places_arguments"
   ],
   "note": "natural types, stack arguments below 4 GB"
  },
  {
   "property": "C10",
   "status": "partial",
   "theorems": [
    "C10_inside_area_partial",
    "C10_inside_area_refuted",
    "C10_argument_lost_refuted"
   ],
   "note": "False for user-supplied alignments above 16 (witnesses: struct of 64 bytes aligned to 64; 32 aligned to 32). Proved for natural types, whose alignment is at most 16."
  },
  {
   "property": "C11",
   "status": "proved",
   "theorems": [
    "C11_no_overread"
   ],
   "note": ""
  },
  {
   "property": "C12",
   "status": "proved",
   "theorems": [
    "C12_closure_sees_arguments"
   ],
   "note": ""
  },
  {
   "property": "C13",
   "status": "proved",
   "theorems": [
    "C13_argument_round_trip"
   ],
   "note": ""
  },
  {
   "property": "C14",
   "status": "proved",
   "theorems": [
    "C14_arguments_extended"
   ],
   "note": ""
  },
  {
   "property": "C15",
   "status": "proved",
   "theorems": [
    "C15_vector_count",
    "C12_closure_sees_arguments"
   ],
   "note": "C12 covers the never-reads-unsaved half: it holds for all contents of the unsaved part of the frame"
  },
  {
   "property": "C16",
   "status": "partial",
   "theorems": [
    "C16_return_stored_partial",
    "C16_return_untouched",
    "C16_long_double_struct_refuted"
   ],
   "note": "False for struct { long double }; proved for every other natural type."
  },
  {
   "property": "C17",
   "status": "partial",
   "theorems": [
    "C17_closure_return_partial",
    "C17_closure_returns_pointer",
    "C17_result_round_trip_partial",
    "C17_long_double_struct_refuted"
   ],
   "note": "False for struct { long double }; proved for every other natural type."
  },
  {
   "property": "C18",
   "status": "proved",
   "theorems": [
    "C18_discarded_result"
   ],
   "note": ""
  },
  {
   "property": "C19",
   "status": "partial",
   "theorems": [
    "C19_arguments_kept_partial",
    "C19_argument_vector_refuted"
   ],
   "note": "The claim is false: ffi_call replaces the pointers to structs above 16 bytes (8 under GNUW64 and in the Win64 code) in the caller's array by pointers into its own frame. Proved: memory reads the same afterwards, and the array is unchanged when there is no such struct."
  },
  {
   "property": "C20",
   "status": "partial",
   "theorems": [
    "C20_struct_by_value_partial",
    "C20_struct_by_value_refuted"
   ],
   "note": "False under the Win64 ABIs for structs of 3, 5, 6 and 7 bytes, which are passed as a pointer to the caller's object. Proved for System V and for all other sizes under Win64."
  },
  {
   "property": "C21",
   "status": "proved",
   "theorems": [
    "C21_win64_places_arguments"
   ],
   "note": "fewer than 2^28 arguments, argument types below 2 GB"
  },
  {
   "property": "C22",
   "status": "proved",
   "theorems": [
    "C22_argument_round_trip",
    "C22_closure_sees_arguments",
    "C22_result_round_trip",
    "C22_result_stored"
   ],
   "note": ""
  },
  {
   "property": "C23",
   "status": "partial",
   "theorems": [
    "C23_call_completes_partial",
    "C23_long_double_refuted"
   ],
   "note": "False for functions returning long double under FFI_WIN64; proved for everything else."
  },
  {
   "property": "C27",
   "status": "proved",
   "theorems": [
    "C27_raw_form",
    "C27_round_trip"
   ],
   "note": "total size representable in size_t; structs and complex numbers are passed by reference and must still be there"
  },
  {
   "property": "C28",
   "status": "proved",
   "theorems": [
    "C27_raw_form",
    "C28_reads_inside"
   ],
   "note": "writes: C27_raw_form, where the block has exactly ffi_raw_size bytes and a store outside is UB"
  },
  {
   "property": "C29",
   "status": "partial",
   "theorems": [
    "C29_java_round_trip",
    "C29_java_result_partial",
    "C29_java_result_refuted"
   ],
   "note": "Arguments: proved for all Java types. Results: false for pointers on big-endian targets with 8-byte argument words and 4-byte Java words (MIPS N32); proved for everything else."
  },
  {
   "property": "C49",
   "status": "partial",
   "theorems": [
    "C49_narrow_pointers_partial",
    "C49_narrow_pointers_refuted"
   ],
   "note": "False on x32: the little-endian translation back divides sizes by sizeof(void*) while words have 8 bytes. Proved for big-endian targets, and for little-endian ones when only by-reference arguments are wider than a pointer."
  },
  {
   "property": "C30",
   "status": "partial",
   "theorems": [
    "C30_raw_dynamic_partial",
    "C30_raw_static_partial",
    "C30_raw_closure_refuted"
   ],
   "note": "False with static trampolines: the handler is read from the code table. Proved for dynamic trampolines, and for static ones when the closure itself is given as code location (as ffi_prep_raw_closure does)."
  },
  {
   "property": "C47",
   "status": "proved",
   "theorems": [
    "C47_dynamic_trampoline"
   ],
   "note": ""
  },
  {
   "property": "C48",
   "status": "proved",
   "theorems": [
    "C48_static_trampoline",
    "C48_static_trampoline_to_entry"
   ],
   "note": "LP64 and x32, with and without endbr64"
  },
  {
   "property": "C50",
   "status": "proved",
   "theorems": [
    "C50_dynamic_closure",
    "C50_static_closure",
    "C50_bad_abi"
   ],
   "note": "LP64"
  },
  {
   "property": "C31",
   "status": "proved",
   "theorems": [
    "C31_live_trampolines_placed",
    "C31_live_trampolines_distinct",
    "C31_get_addr"
   ],
   "note": "any number of threads, any schedule; clients use a trampoline they own and do not use it after freeing it"
  },
  {
   "property": "C32",
   "status": "proved",
   "theorems": [
    "C32_no_undefined_behaviour",
    "C32_live_stay_mapped"
   ],
   "note": ""
  },
  {
   "property": "C33",
   "status": "proved",
   "theorems": [
    "C33_trampoline_runs",
    "C33_trampoline_arrives"
   ],
   "note": "x86-64 LP64; the mapped file shows the code table"
  },
  {
   "property": "C34",
   "status": "proved",
   "theorems": [
    "C34_table_bound"
   ],
   "note": ""
  },
  {
   "property": "C35",
   "status": "proved",
   "theorems": [
    "C35_consistent",
    "C35_no_duplicates",
    "C35_mutual_exclusion",
    "C35_lock_released",
    "C35_progress"
   ],
   "note": ""
  },
  {
   "property": "C36",
   "status": "partial",
   "theorems": [
    "C36_memory_partial",
    "C36_trampolines_partial",
    "C36_code_partial",
    "C36_data_to_code_partial",
    "C36_alloc_partial",
    "C36_free_partial",
    "C36_code_refuted"
   ],
   "note": "False when munmap fails for the data half of a dual mapping after it succeeded for the executable half: two live closures can then have one code address. Proved for all other failures of the allocator, the system and the trampoline layer. dlmalloc's choice of chunks is its contract (inside a segment, apart from the blocks in use), not its code."
  },
  {
   "property": "C37",
   "status": "partial",
   "theorems": [
    "C37_same_bytes_partial",
    "C37_code_unique_partial",
    "C37_grow_defined_partial",
    "C37_trim_defined_partial",
    "C37_same_bytes_refuted"
   ],
   "note": "False when munmap fails for the data half of a dual mapping after it succeeded for the executable half. Proved for every other history of growing, trimming and releasing."
  },
  {
   "property": "C38",
   "status": "partial",
   "theorems": [
    "C38_search_terminates_partial",
    "C38_search_terminates_refuted"
   ],
   "note": "False in a build without HAVE_MNTENT, where the last place is not a repeated one and the search starts again at the first. Proved with HAVE_MNTENT."
  },
  {
   "property": "C39",
   "status": "partial",
   "theorems": [
    "C39_inside_file_partial",
    "C39_backed_no_truncate_partial",
    "C39_backed_no_failure_partial",
    "C39_backed_refuted"
   ],
   "note": "False: when a mapping fails the file is cut back but its position stays, so the next region handed out was never written. Regions inside the file and apart: proved always. Space behind them: proved when no ftruncate succeeds and when no request fails."
  },
  {
   "property": "C51",
   "status": "partial",
   "theorems": [
    "C51_search_partial",
    "C51_search_ends",
    "C51_add_refuted",
    "C51_stale_refuted",
    "C51_prepend_refuted"
   ],
   "note": "False while add_segment or a downward merge runs. Proved while the other thread only appends to segments."
  },
  {
   "property": "C52",
   "status": "partial",
   "theorems": [
    "C52_free_by_code_partial",
    "C52_free_by_code_refuted"
   ],
   "note": "False with static trampolines, where the code address is not in any segment. Proved without."
  },
  {
   "property": "C40",
   "status": "partial",
   "theorems": [
    "C40_distinct_partial",
    "C40_alloc_defined_partial",
    "C40_calloc_refuted",
    "C40_free_defined_partial",
    "C40_freed_access_refuted"
   ],
   "note": "False: moving a table to the front of the list does not unlink it, and with three tables a table given back is written to. Also false when calloc fails. Proved: closures in use are distinct over all histories, allocation is defined when calloc gives memory, freeing is defined unless it empties a table that is not first."
  },
  {
   "property": "C53",
   "status": "partial",
   "theorems": [
    "C53_emptied_partial",
    "C53_lost_refuted",
    "C53_lost_for_good"
   ],
   "note": "False: a first table that empties and is then displaced is neither used nor given back, ever. Proved for tables that are not first when they empty."
  },
  {
   "property": "C41",
   "status": "proved",
   "theorems": [
    "C41_hfa_recognition"
   ],
   "note": "On Apple and Windows systems for types without a 16-byte long double, which does not exist there."
  },
  {
   "property": "C42",
   "status": "partial",
   "theorems": [
    "C42_argument_area_partial",
    "C42_argument_area_refuted"
   ],
   "note": "False: the area is computed from the sizes of the arguments, without the pointers to copies on the stack; with nine 32-byte structs the ninth pointer overwrites the ninth copy. Proved when nothing goes by reference and when pointers to copies on the stack are not more than the words in registers, with alignments up to 8."
  },
  {
   "property": "C43",
   "status": "partial",
   "theorems": [
    "C43_round_trip_partial",
    "C43_round_trip_refuted",
    "C43_round_trip_apple_refuted"
   ],
   "note": "False: ffi_call puts the pointer to a copy on the stack with the alignment of a pointer, the closure looks for it with the alignment of the struct; on Apple systems the other way round for structs of chars. Proved for all signatures that fit the area and whose pointers on the stack have the same place either way."
  },
  {
   "property": "C54",
   "status": "partial",
   "theorems": [
    "C54_call_placement_partial"
   ],
   "note": "Missing: the signatures C42 and C43 are false for."
  },
  {
   "property": "C55",
   "status": "proved",
   "theorems": [
    "C55_closure_arguments"
   ],
   "note": ""
  },
  {
   "property": "C56",
   "status": "proved",
   "theorems": [
    "C56_call_result",
    "C56_no_store"
   ],
   "note": ""
  },
  {
   "property": "C57",
   "status": "proved",
   "theorems": [
    "C57_closure_result"
   ],
   "note": ""
  },
  {
   "property": "C58",
   "status": "proved",
   "theorems": [
    "C58_result_round_trip"
   ],
   "note": ""
  },
  {
   "property": "C59",
   "status": "partial",
   "theorems": [
    "C59_windows_variadic_partial",
    "C59_windows_variadic_refuted"
   ],
   "note": "False for homogeneous aggregates: the members are written 16 bytes apart into general registers 8 bytes apart. Proved for float and double while registers last."
  },
  {
   "property": "C44",
   "status": "partial",
   "theorems": [
    "C44_round_trip_partial",
    "C44_round_trip_refuted"
   ],
   "note": "False: a struct of one float or double is stored in fa8, that is a0, when all floating point registers are used (marshal checks the room of a bare float, not of a struct with one member). Proved for all other signatures, LP64, LP64F and LP64D."
  },
  {
   "property": "C45",
   "status": "partial",
   "theorems": [
    "C45_areas_partial",
    "C45_areas_refuted"
   ],
   "note": "False for 4 GiB of arguments, where the 32-bit byte count wraps. Proved for arguments below 2 GiB."
  },
  {
   "property": "C46",
   "status": "partial",
   "theorems": [
    "C46_narrow_results_partial",
    "C46_narrow_results_refuted"
   ],
   "note": "False for ffi_type_uint32 from 2^31 on: the register is sign-extended and stored as it is. Proved for all other types and values."
  },
  {
   "property": "C60",
   "status": "partial",
   "theorems": [
    "C60_placement_partial",
    "C44_round_trip_refuted"
   ],
   "note": "Missing: structs of one float or double without a floating point register, for which the second part of C44_round_trip_refuted shows it false."
  },
  {
   "property": "C61",
   "status": "partial",
   "theorems": [
    "C61_closure_arguments_partial"
   ],
   "note": "Missing: structs of one float or double without a floating point register."
  },
  {
   "property": "C62",
   "status": "partial",
   "theorems": [
    "C62_copies_aligned_partial",
    "C62_copies_aligned_refuted"
   ],
   "note": "False for types aligned to 16 bytes: copies are at multiples of 8. Proved for alignments up to 8."
  },
  {
   "property": "C63",
   "status": "partial",
   "theorems": [
    "C63_void_result_partial",
    "C63_void_result_refuted"
   ],
   "note": "False: the low byte of a0 is stored, ffi_type_void having size 1. Proved for the other bytes."
  },
  {
   "property": "C64",
   "status": "partial",
   "theorems": [
    "C64_result_room_partial",
    "C64_result_room_refuted"
   ],
   "note": "False for narrow integers: alloca of the size of the type. Proved for other types."
  },
  {
   "property": "C65",
   "status": "proved",
   "theorems": [
    "C65_results"
   ],
   "note": ""
  },
  {
   "property": "C66",
   "status": "partial",
   "theorems": [
    "C66_block_partial",
    "C66_block_refuted"
   ],
   "note": "False: with nineteen structs of one double the last is written behind the block. Proved for all signatures whose structs of one float or double get registers."
  },
  {
   "property": "C24",
   "status": "partial",
   "theorems": [
    "C24_round_trip_partial",
    "C24_pascal_partial",
    "C24_register_refuted",
    "C24_struct_result_refuted",
    "C24_complex_refuted"
   ],
   "note": "False for REGISTER closures (return address and closure confused), for PASCAL with a result in memory, and for complex numbers of at most four bytes. Proved for SYSV, STDCALL, THISCALL, FASTCALL, MS_CDECL, and for PASCAL without results in memory."
  },
  {
   "property": "C25",
   "status": "partial",
   "theorems": [
    "C25_pops_partial",
    "C25_pops_refuted",
    "C25_pops_huge_refuted"
   ],
   "note": "False for FASTCALL and THISCALL with 64-bit integers or structs, for padding, and for PASCAL and REGISTER. Proved for SYSV and MS_CDECL, and for STDCALL, THISCALL and FASTCALL without such arguments."
  },
  {
   "property": "C26",
   "status": "partial",
   "theorems": [
    "C26_raw_call_partial",
    "C26_address_refuted",
    "C26_read_refuted",
    "C26_thiscall_refuted"
   ],
   "note": "False: bit 4 of the alloca address is cleared, the raw memory is read beyond its end, THISCALL skips words. Proved for SYSV, STDCALL and MS_CDECL when these do not matter, without structs."
  },
  {
   "property": "C67",
   "status": "partial",
   "theorems": [
    "C67_placement_partial",
    "C67_last_lowest_partial",
    "C67_placement_refuted"
   ],
   "note": "False for PASCAL and REGISTER, where there is a gap below the arguments. Proved for the five other conventions; for those two up to the gap."
  },
  {
   "property": "C68",
   "status": "partial",
   "theorems": [
    "C68_closure_arguments_partial",
    "C68_closure_arguments_refuted"
   ],
   "note": "False for PASCAL and REGISTER. Proved for the five other conventions."
  },
  {
   "property": "C69",
   "status": "partial",
   "theorems": [
    "C69_call_result_partial",
    "C69_call_result_refuted"
   ],
   "note": "False for structs of one floating point number on Darwin. Proved for all other types."
  },
  {
   "property": "C70",
   "status": "partial",
   "theorems": [
    "C70_closure_result_partial",
    "C70_memory_result",
    "C70_result_trip_partial",
    "C70_closure_result_refuted",
    "C70_nan_refuted"
   ],
   "note": "False for structs of one floating point number on Darwin and for signalling NaNs. Proved otherwise."
  },
  {
   "property": "C71",
   "status": "partial",
   "theorems": [
    "C71_chain_partial",
    "C71_pops_partial",
    "C71_go_closure_refuted"
   ],
   "note": "False for THISCALL and FASTCALL, whose Go closures pop nothing. Proved for SYSV, MS_CDECL and STDCALL; the chain register for all."
  },
  {
   "property": "C72",
   "status": "partial",
   "theorems": [
    "C72_raw_closure_partial",
    "C72_raw_closure_this_partial",
    "C72_raw_closure_pops_partial",
    "C72_raw_closure_refuted",
    "C72_raw_closure_pops_refuted"
   ],
   "note": "False for results in memory and for what THISCALL closures pop. Proved otherwise, for THISCALL with a first argument in ecx."
  },
  {
   "property": "C73",
   "status": "partial",
   "theorems": [
    "C73_call_code_partial"
   ],
   "note": "Missing: signatures for which ffi_call itself misplaces arguments (C42, C43); Windows and ILP32."
  },
  {
   "property": "C74",
   "status": "proved",
   "theorems": [
    "C74_dynamic_closure"
   ],
   "note": ""
  },
  {
   "property": "C75",
   "status": "proved",
   "theorems": [
    "C75_static_closure"
   ],
   "note": ""
  },
  {
   "property": "C76",
   "status": "proved",
   "theorems": [
    "C76_mach_closure"
   ],
   "note": ""
  },
  {
   "property": "C77",
   "status": "partial",
   "theorems": [
    "C77_go_closure_partial",
    "C77_go_closure_refuted"
   ],
   "note": "False with pointer authentication on Linux and vector arguments: the return address is not signed but authenticated. Proved otherwise."
  },
  {
   "property": "C78",
   "status": "proved",
   "theorems": [
    "C78_call_entry"
   ],
   "note": ""
  },
  {
   "property": "C79",
   "status": "partial",
   "theorems": [
    "C79_call_result_partial",
    "C79_no_result",
    "C79_struct_refuted"
   ],
   "note": "False for structs of one long double: not stored, and left on the x87 stack. Proved for all other types, void and results in memory."
  },
  {
   "property": "C80",
   "status": "partial",
   "theorems": [
    "C80_discarded_partial",
    "C80_x87_refuted"
   ],
   "note": "False for long double: the value stays on the x87 stack. Proved for functions that return nothing there."
  },
  {
   "property": "C81",
   "status": "proved",
   "theorems": [
    "C81_closure_entry"
   ],
   "note": ""
  },
  {
   "property": "C82",
   "status": "partial",
   "theorems": [
    "C82_closure_result_partial",
    "C82_closure_pointer",
    "C82_closure_void",
    "C82_struct_refuted"
   ],
   "note": "False for structs of one long double: nothing on the x87 stack. Proved for all other types, void and results in memory."
  },
  {
   "property": "C83",
   "status": "proved",
   "theorems": [
    "C83_go_closure_entry"
   ],
   "note": ""
  },
  {
   "property": "C84",
   "status": "partial",
   "theorems": [
    "C84_round_trip_partial",
    "C84_round_trip_refuted"
   ],
   "note": "False: the ninth struct of one float or double is stored over a0. Proved for signatures whose structs of one float or double get registers and whose copies fit the area (C86)."
  },
  {
   "property": "C85",
   "status": "partial",
   "theorems": [
    "C85_placement_partial",
    "C84_round_trip_refuted",
    "C86_area_refuted"
   ],
   "note": "False where C84 and C86 are. Proved for all other signatures."
  },
  {
   "property": "C86",
   "status": "partial",
   "theorems": [
    "C86_area_partial",
    "C86_area_refuted"
   ],
   "note": "False for nine structs of three words: the last copy and the pointer to it overlap. Proved without arguments passed by reference, and for up to eight of them if no alignment exceeds 8."
  },
  {
   "property": "C87",
   "status": "partial",
   "theorems": [
    "C87_closure_arguments_partial"
   ],
   "note": "Missing: structs of one float or double without a floating point register."
  },
  {
   "property": "C88",
   "status": "partial",
   "theorems": [
    "C88_block_partial",
    "C88_block_refuted"
   ],
   "note": "False for a struct of two long doubles followed by one of three words: the second copy is below the block. Proved under the conditions of C84 and C86."
  },
  {
   "property": "C89",
   "status": "partial",
   "theorems": [
    "C89_narrow_results_partial",
    "C89_narrow_results_refuted"
   ],
   "note": "False for ffi_type_uint32 from 2^31 on: stored sign-extended. Proved otherwise."
  },
  {
   "property": "C90",
   "status": "partial",
   "theorems": [
    "C90_results_partial",
    "C90_results_refuted"
   ],
   "note": "False for struct { float; int; }: eight bytes are stored at offset 4 of eight. Proved when the memory is large enough."
  },
  {
   "property": "C91",
   "status": "partial",
   "theorems": [
    "C91_void_result_partial",
    "C91_result_room_partial",
    "C91_void_result_refuted",
    "C91_result_room_refuted"
   ],
   "note": "False: a byte is stored for void, and only the size of the type is set aside for narrow integers. Proved for the other bytes and types."
  },
  {
   "property": "C92",
   "status": "partial",
   "theorems": [
    "C92_call_code_partial"
   ],
   "note": "Missing: structs of one float or double without a floating point register (C60), sizes of 2 GiB and more."
  },
  {
   "property": "C93",
   "status": "proved",
   "theorems": [
    "C93_dynamic_closure"
   ],
   "note": ""
  },
  {
   "property": "C94",
   "status": "proved",
   "theorems": [
    "C94_go_closure"
   ],
   "note": ""
  },
  {
   "property": "C95",
   "status": "partial",
   "theorems": [
    "C95_call_code_partial"
   ],
   "note": "Missing: signatures that do not fit the argument area (C86), structs of one float or double without a floating point register (C84), sizes of 2 GiB and more."
  },
  {
   "property": "C96",
   "status": "proved",
   "theorems": [
    "C96_dynamic_closure"
   ],
   "note": ""
  },
  {
   "property": "C97",
   "status": "proved",
   "theorems": [
    "C97_static_closure"
   ],
   "note": ""
  },
  {
   "property": "C98",
   "status": "proved",
   "theorems": [
    "C98_go_closure"
   ],
   "note": ""
  },
  {
   "property": "C99",
   "status": "partial",
   "theorems": [
    "C99_stack_pointer_partial",
    "C99_stack_pointer_refuted"
   ],
   "note": "False: cif->bytes is not rounded to 16, and ffi_call_asm returns with the stack pointer at the call_context behind that many bytes. Proved: it is a multiple of 16 exactly if cif->bytes is."
  },
  {
   "property": "C100",
   "status": "partial",
   "theorems": [
    "C100_call_entry_partial",
    "C100_last_lowest_partial",
    "C100_raw_call_partial",
    "C67_placement_refuted"
   ],
   "note": "False where C67 and C26 are: PASCAL and REGISTER arguments are above a gap. Proved for all other conventions, and for these with the gap; results in memory with PASCAL and REGISTER and complex numbers of at most four bytes are excluded."
  },
  {
   "property": "C101",
   "status": "partial",
   "theorems": [
    "C101_call_result_partial",
    "C101_struct_refuted"
   ],
   "note": "False for struct (float) on Darwin: not stored, and left on the x87 stack. Proved for all other types, also without memory for the result."
  },
  {
   "property": "C102",
   "status": "partial",
   "theorems": [
    "C102_dynamic_closure_partial",
    "C102_static_closure_partial",
    "C102_register_refuted",
    "C68_closure_arguments_refuted"
   ],
   "note": "False for REGISTER (return address and closure swapped) and PASCAL (gap). Proved for the other five conventions."
  },
  {
   "property": "C103",
   "status": "partial",
   "theorems": [
    "C103_closure_result_partial",
    "C25_pops_refuted",
    "C70_closure_result_refuted",
    "C70_nan_refuted"
   ],
   "note": "False where C25 and C70 are. Proved for SYSV and MS_CDECL, and for STDCALL, THISCALL, FASTCALL with arguments for which C25 holds; struct (float) on Darwin and signalling NaNs are excluded."
  },
  {
   "property": "C104",
   "status": "partial",
   "theorems": [
    "C104_go_closure_partial",
    "C104_go_result_partial",
    "C71_go_closure_refuted"
   ],
   "note": "The return is false for THISCALL and FASTCALL (arguments not removed). Missing: PASCAL, REGISTER."
  },
  {
   "property": "C105",
   "status": "partial",
   "theorems": [
    "C105_raw_closure_partial",
    "C105_raw_closure_this_partial",
    "C105_raw_result_partial",
    "C105_tracking_refuted",
    "C105_trampoline_refuted"
   ],
   "note": "False on processors that track branches: the jump into the table and the trampoline fault. Proved without tracking, except for what is false of C72."
  },
  {
   "property": "C106",
   "status": "partial",
   "theorems": [
    "C106_closure_trip_partial"
   ],
   "note": "Proved for the conventions and signatures for which C24, C25 and C70 hold."
  },
  {
   "property": "C107",
   "status": "proved",
   "theorems": [
    "C107_homogeneous"
   ],
   "note": ""
  },
  {
   "property": "C108",
   "status": "proved",
   "theorems": [
    "C108_fp_registers",
    "C108_lowest_free"
   ],
   "note": ""
  },
  {
   "property": "C109",
   "status": "partial",
   "theorems": [
    "C109_block_size_partial",
    "C109_block_size_refuted"
   ],
   "note": "False for complex results in memory with arguments aligned to 8 bytes. Proved for all other results; with floating point registers for the signatures for which C111 holds."
  },
  {
   "property": "C110",
   "status": "partial",
   "theorems": [
    "C110_base_call_partial",
    "C110_base_refuted"
   ],
   "note": "False for complex results in memory with arguments aligned to 8 bytes (C109). Proved for everything else."
  },
  {
   "property": "C111",
   "status": "partial",
   "theorems": [
    "C111_vfp_call_partial",
    "C111_vfp_refuted"
   ],
   "note": "False when an argument for core registers follows one that went to the stack while core registers were left. Proved for everything else but complex results in memory with arguments aligned to 8 bytes."
  },
  {
   "property": "C112",
   "status": "partial",
   "theorems": [
    "C112_closure_arguments_partial",
    "C112_closure_arguments_refuted"
   ],
   "note": "False where C111 is. Proved for everything else."
  },
  {
   "property": "C113",
   "status": "partial",
   "theorems": [
    "C113_dynamic_trip_partial",
    "C113_static_trip_partial",
    "C113_go_trip_partial"
   ],
   "note": "Missing: complex results in memory with arguments aligned to 8 bytes, where the block of ffi_call is too small."
  },
  {
   "property": "C114",
   "status": "partial",
   "theorems": [
    "C114_result_partial",
    "C114_complex_char_refuted",
    "C114_null_result_refuted",
    "C114_stack_pointer_refuted"
   ],
   "note": "False: complex char is stored as four bytes, memory for an unwanted result is misaligned, sp is not restored by the assembly code. Proved for all else but complex results in memory with arguments aligned to 8 bytes."
  },
  {
   "property": "C115",
   "status": "proved",
   "theorems": [
    "C115_closure_result"
   ],
   "note": ""
  },
  {
   "property": "C116",
   "status": "proved",
   "theorems": [
    "C116_dynamic",
    "C116_static",
    "C116_go"
   ],
   "note": ""
  },
  {
   "property": "C117",
   "status": "proved",
   "theorems": [
    "C117_call_entry",
    "C117_go_call_entry"
   ],
   "note": ""
  },
  {
   "property": "C118",
   "status": "partial",
   "theorems": [
    "C118_call_result_partial",
    "C118_no_result",
    "C118_stack_alignment_refuted",
    "C118_long_double_refuted"
   ],
   "note": "False: with five, seven, ... slots the stack pointer is not aligned on return; long double under FFI_WIN64 aborts. Proved: everything else."
  },
  {
   "property": "C119",
   "status": "proved",
   "theorems": [
    "C119_closure_entry",
    "C119_alt_entry",
    "C119_prepared"
   ],
   "note": ""
  },
  {
   "property": "C120",
   "status": "proved",
   "theorems": [
    "C120_closure_result",
    "C120_closure_pointer"
   ],
   "note": ""
  },
  {
   "property": "C121",
   "status": "proved",
   "theorems": [
    "C121_go_closure_entry",
    "C119_prepared"
   ],
   "note": ""
  },
  {
   "property": "C122",
   "status": "proved",
   "theorems": [
    "C122_arguments_arrive",
    "C122_result_arrives"
   ],
   "note": ""
  },
  {
   "property": "C123",
   "status": "proved",
   "theorems": [
    "C123_cif"
   ],
   "note": ""
  },
  {
   "property": "C124",
   "status": "proved",
   "theorems": [
    "C124_call_entry"
   ],
   "note": ""
  },
  {
   "property": "C125",
   "status": "proved",
   "theorems": [
    "C125_call_result"
   ],
   "note": ""
  },
  {
   "property": "C126",
   "status": "proved",
   "theorems": [
    "C126_closure_entry"
   ],
   "note": ""
  },
  {
   "property": "C127",
   "status": "proved",
   "theorems": [
    "C127_closure_result"
   ],
   "note": ""
  },
  {
   "property": "C128",
   "status": "partial",
   "theorems": [
    "C128_saved_registers_partial",
    "C128_saved_registers_refuted"
   ],
   "note": "False: a handler that assigns to its fifth integer argument changes the caller's %r6. Proved when the handler does not write there, and (C127) for all other registers."
  },
  {
   "property": "C129",
   "status": "proved",
   "theorems": [
    "C129_dynamic_trampoline",
    "C129_static_trampoline",
    "C129_go_closure"
   ],
   "note": ""
  },
  {
   "property": "C130",
   "status": "proved",
   "theorems": [
    "C130_round_trip"
   ],
   "note": "The saved registers include %r6, see C128."
  },
  {
   "property": "C131",
   "status": "proved",
   "theorems": [
    "C131_call_args",
    "C131_call_args_plain"
   ],
   "note": ""
  },
  {
   "property": "C132",
   "status": "partial",
   "theorems": [
    "C132_argument_space_partial",
    "C132_argument_space_refuted"
   ],
   "note": "False: for a double word that comes when only %r8 is left (and no variadic arguments) four bytes behind the space are written. Proved otherwise."
  },
  {
   "property": "C133",
   "status": "partial",
   "theorems": [
    "C133_saved_registers_partial",
    "C133_saved_registers_refuted"
   ],
   "note": "False in the case of C132: %r20 is lost. Proved otherwise."
  },
  {
   "property": "C134",
   "status": "partial",
   "theorems": [
    "C134_call_result_partial",
    "C134_call_result_refuted"
   ],
   "note": "False: after a void function %r11 is stored at the result pointer, even if it is NULL. Proved for all other results, without the case of C132."
  },
  {
   "property": "C135",
   "status": "proved",
   "theorems": [
    "C135_closure_args"
   ],
   "note": ""
  },
  {
   "property": "C136",
   "status": "proved",
   "theorems": [
    "C136_closure_result"
   ],
   "note": ""
  },
  {
   "property": "C137",
   "status": "proved",
   "theorems": [
    "C137_trampoline"
   ],
   "note": ""
  },
  {
   "property": "C138",
   "status": "proved",
   "theorems": [
    "C138_round_trip"
   ],
   "note": ""
  },
  {
   "property": "C139",
   "status": "partial",
   "theorems": [
    "C139_avalue_partial",
    "C139_avalue_refuted"
   ],
   "note": "False: elements for struct arguments point to stack memory of ffi_call afterwards. Proved without struct arguments."
  },
  {
   "property": "C140",
   "status": "partial",
   "theorems": [
    "C140_bfin_call_args_partial",
    "C140_bfin_call_args_refuted"
   ],
   "note": "False: an argument after a struct of more than four bytes whose size is no multiple of four is misplaced. Proved if there is no such struct except as the last argument."
  },
  {
   "property": "C141",
   "status": "proved",
   "theorems": [
    "C141_bfin_argument_space"
   ],
   "note": ""
  },
  {
   "property": "C142",
   "status": "partial",
   "theorems": [
    "C142_bfin_call_result_partial",
    "C142_bfin_call_result_refuted",
    "C142_bfin_small_struct_refuted",
    "C142_bfin_half_word_refuted"
   ],
   "note": "False: structs of 5 to 7 bytes are not stored, for structs of 1 to 3 bytes four are written, half-words of one signedness are extended wrongly. Proved for all other results."
  },
  {
   "property": "C143",
   "status": "proved",
   "theorems": [
    "C143_bfin_saved_registers"
   ],
   "note": ""
  },
  {
   "property": "C144",
   "status": "partial",
   "theorems": [
    "C144_bfin_function_got_partial",
    "C144_bfin_function_got_refuted"
   ],
   "note": "False: P3 is loaded from the caller's stack, next to the descriptor's address. Proved if the same word is there."
  }
 ]
}