{"id": "C01", "title": "Struct layout equals the C layout", "statement": "After a successful ffi_prep_cif or ffi_get_struct_offsets, the size and alignment recorded in a struct type, and every reported member offset, are exactly those of the C layout rule: each member at the least offset not below the end of its predecessor that is a multiple of the member's alignment, alignment the maximum of the members', size the least multiple of the alignment not below the end of the last member. This holds for arbitrarily nested and shared member types.", "quantifier": "for every finite struct type, of any nesting depth and any sharing of member type objects, with power-of-two alignments and a total size below 2^64", "why_tests_cant": "a test suite samples a handful of shapes; layouts range over unboundedly many nested types", "anchors": ["src/prep_cif.c:initialize_aggregate", "src/prep_cif.c:ffi_get_struct_offsets", "include/ffi_common.h:FFI_ALIGN"]}
{"id": "C02", "title": "Preparing a call never changes the layout of a type", "statement": "A successful ffi_prep_cif fills in size and alignment of uninitialised struct types reachable from the signature and changes no other type object; it never changes the effective layout (size, alignment) of any type, so any later preparation using any of these types computes the same layout, whatever the history.", "quantifier": "for every heap of type objects and every sequence of successful preparations over it", "why_tests_cant": "histories of preparations sharing type objects are unbounded", "anchors": ["src/prep_cif.c:initialize_aggregate", "src/prep_cif.c:ffi_prep_cif_core"]}
{"id": "C03", "title": "A rejected type stays rejected", "statement": "If ffi_prep_cif returns FFI_BAD_TYPEDEF because of an invalid type description, then calling it again with the same unmodified arguments returns FFI_BAD_TYPEDEF again.", "quantifier": "for every signature and every type object graph", "why_tests_cant": "needs a particular history (failure, then retry) on a particular shape of invalid type", "anchors": ["src/prep_cif.c:initialize_aggregate", "src/prep_cif.c:ffi_prep_cif_core"]}
{"id": "C04", "title": "ffi_prep_cif status is exact", "statement": "On x86-64 ffi_prep_cif returns FFI_BAD_ABI exactly when the ABI number is outside the platform's range or names an ABI the backend does not implement, FFI_BAD_TYPEDEF when a type that needs layout cannot be laid out or the return type is not a representable one, and FFI_OK otherwise; it never aborts on valid type descriptions.", "quantifier": "for every ABI number, every return type, every list of argument types", "why_tests_cant": "the cross product of ABI numbers, return types and argument types is infinite", "anchors": ["src/prep_cif.c:ffi_prep_cif_core", "src/x86/ffi64.c:ffi_prep_cif_machdep"]}
{"id": "C05", "title": "Variadic preparation rejects exactly the unpromoted types", "statement": "When the underlying preparation succeeds, ffi_prep_cif_var returns FFI_BAD_ARGTYPE exactly when some argument after the fixed ones is float or a non-struct, non-complex type smaller than int, and FFI_OK otherwise; the fixed arguments are never inspected by this rule.", "quantifier": "for every split into fixed and variadic arguments and every list of types", "why_tests_cant": "all argument lists and all split points cannot be enumerated", "anchors": ["src/prep_cif.c:ffi_prep_cif_var"]}
{"id": "C06", "title": "Type initialisation terminates on every acyclic type graph", "statement": "Preparing a call whose types form a finite acyclic graph always terminates, never dereferences a null pointer and never touches memory outside the type objects of the graph.", "quantifier": "for every acyclic type graph, including deeply nested and shared ones", "why_tests_cant": "non-termination and invalid accesses can only be sampled by running", "anchors": ["src/prep_cif.c:initialize_aggregate"]}
{"id": "C07", "title": "x86-64 classification matches the psABI", "statement": "Each argument or return type is split into eightbytes and classified (INTEGER, SSE, X87, memory) exactly as the System V x86-64 psABI prescribes for the flattened list of its scalar members.", "quantifier": "for every type built from the predefined scalar and complex types by struct nesting of any depth, with natural layout", "why_tests_cant": "struct shapes are infinite; the code recurses over the nested tree while the ABI rule speaks of the flattened members", "anchors": ["src/x86/ffi64.c:classify_argument", "src/x86/ffi64.c:merge_classes", "src/x86/ffi64.c:examine_argument"]}
{"id": "C08", "title": "Classification never leaves its class buffer", "statement": "Classifying a type never reads or writes outside the fixed-size class arrays and never reaches abort for types with a valid description.", "quantifier": "for every natural type of any nesting depth", "why_tests_cant": "an overflow needs one particular nested shape", "anchors": ["src/x86/ffi64.c:classify_argument", "src/x86/ffi64.c:MAX_CLASSES"]}
{"id": "C09", "title": "x86-64 ffi_call puts every argument where the psABI says", "statement": "When ffi_call transfers control to the target function, the bytes of every argument (for structs: of its members; padding carries no value) are in exactly the registers or the stack slot that the System V x86-64 calling convention assigns to it, whatever the initial content of registers and stack.", "quantifier": "for every signature (any number of arguments, any natural types), every argument values and every initial garbage", "why_tests_cant": "register exhaustion interleaves with type classes in unboundedly many ways", "anchors": ["src/x86/ffi64.c:ffi_call_int", "src/x86/ffi64.c:ffi_prep_cif_machdep"]}
{"id": "C10", "title": "x86-64 ffi_call stays inside its argument area", "statement": "Filling the argument area during ffi_call never writes outside the stack space reserved from the prepared cif, for every signature the preparation accepted.", "quantifier": "for every prepared signature, including types with user-supplied alignment", "why_tests_cant": "an overflow depends on the interplay of sizes and alignments over an arbitrary argument list", "anchors": ["src/x86/ffi64.c:ffi_call_int", "src/x86/ffi64.c:ffi_prep_cif_machdep"]}
{"id": "C11", "title": "x86-64 ffi_call never over-reads an argument object", "statement": "ffi_call reads from each argument object only the bytes of its declared size.", "quantifier": "for every signature with natural types and every argument object of exactly its declared size", "why_tests_cant": "over-reads by up to seven bytes are invisible unless the object ends at a page boundary", "anchors": ["src/x86/ffi64.c:ffi_call_int"]}
{"id": "C12", "title": "x86-64 closures see the caller's arguments", "statement": "When C code compiled to the System V convention calls a closure, the handler receives for every argument a pointer to memory holding exactly that argument's bytes (for structs: those of its members; padding carries no value).", "quantifier": "for every signature with natural types and every register and stack state that holds the arguments per the psABI", "why_tests_cant": "register/stack assignment over unbounded signatures", "anchors": ["src/x86/ffi64.c:ffi_closure_unix64_inner", "src/x86/unix64.S:ffi_closure_unix64"]}
{"id": "C13", "title": "x86-64 call/closure argument round trip", "statement": "Calling a closure through ffi_call with the same signature delivers to the closure handler exactly the argument bytes given to ffi_call (padding excepted).", "quantifier": "for every natural signature and every argument values", "why_tests_cant": "composition over all signatures", "anchors": ["src/x86/ffi64.c:ffi_call_int", "src/x86/ffi64.c:ffi_closure_unix64_inner"]}
{"id": "C14", "title": "Narrow integer arguments are extended on x86-64", "statement": "Signed 8/16/32-bit arguments passed in general registers are sign-extended to 64 bits and unsigned ones zero-extended; struct remainders are zero-filled.", "quantifier": "for every value and every register position", "why_tests_cant": "all values in all positions", "anchors": ["src/x86/ffi64.c:ffi_call_int"]}
{"id": "C15", "title": "Vector register count and vector save agree on x86-64", "statement": "The number placed in %al is exactly the number of vector registers used, at most 8; a closure whose signature passes any argument in a vector register uses the entry point that saves vector registers, so the handler never sees an unsaved register; one that does not never reads them.", "quantifier": "for every signature", "why_tests_cant": "depends on counts over arbitrary argument lists", "anchors": ["src/x86/ffi64.c:ffi_prep_cif_machdep", "src/x86/ffi64.c:ffi_prep_closure_loc", "src/x86/unix64.S"]}
{"id": "C16", "title": "x86-64 return value is delivered and widened", "statement": "After ffi_call the result buffer holds exactly the callee's return value for every return type: integers narrower than a register are widened to ffi_arg preserving sign or zero-extension; floating, complex and struct results occupy exactly their bytes, and no byte beyond them is written.", "quantifier": "for every natural return type and every callee return state conforming to the psABI", "why_tests_cant": "all struct shapes and all values", "anchors": ["src/x86/ffi64.c:ffi_prep_cif_machdep", "src/x86/unix64.S:ffi_call_unix64"]}
{"id": "C17", "title": "x86-64 closure return value is delivered", "statement": "When a closure handler fills its result buffer as documented, the C caller of the closure obtains that value per the psABI.", "quantifier": "for every natural return type and every handler result", "why_tests_cant": "all struct shapes and values", "anchors": ["src/x86/ffi64.c:ffi_closure_unix64_inner", "src/x86/unix64.S:ffi_closure_unix64"]}
{"id": "C18", "title": "Discarding a return value is safe on x86-64", "statement": "Calling ffi_call with a null result pointer never writes through it, still passes a valid hidden pointer for results returned in memory, and leaves the arguments unaffected.", "quantifier": "for every return type and signature", "why_tests_cant": "every return class combined with null result", "anchors": ["src/x86/ffi64.c:ffi_call_int"]}
{"id": "C19", "title": "ffi_call leaves the caller's argument vector unchanged", "statement": "ffi_call does not modify the array of argument pointers supplied by the caller nor the argument objects, so the array can be reused for another call, as the manual's example does.", "quantifier": "for every signature and every sequence of calls sharing the array", "why_tests_cant": "requires reusing the array after a call with a struct shape that triggers copying", "anchors": ["src/x86/ffi64.c:ffi_call", "src/x86/ffiw64.c:ffi_call_int", "doc/libffi.texi"]}
{"id": "C20", "title": "Structs are passed by value", "statement": "A callee that modifies a struct parameter never changes the caller's argument object.", "quantifier": "for every struct size and ABI of the x86-64 backend", "why_tests_cant": "only specific sizes on specific ABIs go by reference", "anchors": ["src/x86/ffi64.c:ffi_call", "src/x86/ffiw64.c:ffi_call_int"]}
{"id": "C21", "title": "Win64 ffi_call puts every argument where the convention says", "statement": "For the Win64 ABIs each argument occupies its positional 8-byte slot (first four also in registers, integer and vector copies alike); objects of size 1, 2, 4 or 8 by value, all others by reference; the hidden result pointer takes the first slot.", "quantifier": "for every signature (FFI_WIN64 functions returning a 16 byte long double excepted, see C23) and every argument values", "why_tests_cant": "unbounded signatures", "anchors": ["src/x86/ffiw64.c:ffi_call_int", "src/x86/win64.S:ffi_call_win64"]}
{"id": "C22", "title": "Win64 call/closure round trip", "statement": "A Win64 closure called through a Win64 ffi_call with the same signature receives exactly the argument bytes, and its result is delivered back.", "quantifier": "for every signature (FFI_WIN64 functions returning a 16 byte long double excepted, see C23) and values", "why_tests_cant": "unbounded signatures and values", "anchors": ["src/x86/ffiw64.c:ffi_call_int", "src/x86/ffiw64.c:ffi_closure_win64_inner"]}
{"id": "C23", "title": "Every Win64 signature accepted by preparation can be called", "statement": "If preparation of a Win64 signature returns FFI_OK then ffi_call on it reaches the target and stores the result without aborting.", "quantifier": "for every Win64-family ABI and every return type", "why_tests_cant": "abort on a rarely used return type/ABI combination", "anchors": ["src/x86/ffiw64.c:ffi_prep_cif_machdep", "src/x86/win64.S:ffi_call_win64"]}
{"id": "C24", "title": "i386 call/closure argument round trip", "statement": "For each 32-bit x86 ABI, calling a closure through ffi_call with the same signature delivers exactly the argument bytes (after the documented integer extension) and stays inside the reserved stack area.", "quantifier": "for every 32-bit ABI, every signature, every argument values", "why_tests_cant": "eight ABIs times unbounded signatures", "anchors": ["src/x86/ffi.c:ffi_call_int", "src/x86/ffi.c:ffi_closure_inner"]}
{"id": "C25", "title": "Callee-pop count of i386 closures equals the bytes pushed", "statement": "A closure for a callee-pops convention removes from the stack exactly the bytes of the arguments that the convention passes on the stack.", "quantifier": "for every signature of a callee-pops ABI", "why_tests_cant": "depends on which arguments landed in registers over arbitrary signatures", "anchors": ["src/x86/ffi.c:ffi_closure_inner", "src/x86/sysv.S:ffi_closure_STDCALL"]}
{"id": "C26", "title": "i386 raw calls pass the raw words to the callee", "statement": "ffi_raw_call on i386 delivers each word of the raw argument block to the register or stack slot of the corresponding argument, reads only the raw block, and writes only its own frame.", "quantifier": "for every 32-bit ABI and every signature", "why_tests_cant": "register-passing ABIs combined with raw calls", "anchors": ["src/x86/ffi.c:ffi_raw_call"]}
{"id": "C27", "title": "Raw and pointer-array argument forms are inverse", "statement": "Translating argument pointers to the raw form and back gives, for every argument, a pointer to memory holding exactly the original argument's bytes.", "quantifier": "for every signature and all argument values, for both word sizes and byte orders, on targets whose pointers are as wide as their argument words", "why_tests_cant": "all signatures with multi-word arguments", "anchors": ["src/raw_api.c:ffi_ptrarray_to_raw", "src/raw_api.c:ffi_raw_to_ptrarray"]}
{"id": "C28", "title": "ffi_raw_size bounds the raw form", "statement": "The translation to raw form writes only within ffi_raw_size bytes, and the translation back reads only within them.", "quantifier": "for every signature and all block contents, on targets whose pointers are as wide as their argument words", "why_tests_cant": "depends on sums over arbitrary argument lists", "anchors": ["src/raw_api.c:ffi_raw_size", "src/raw_api.c:ffi_ptrarray_to_raw"]}
{"id": "C29", "title": "Java raw form round trip", "statement": "Translating argument pointers to the Java raw form and back preserves every argument, longs and doubles occupying two words, within ffi_java_raw_size bytes; Java return conversion round-trips.", "quantifier": "for every signature of Java-expressible types and all values", "why_tests_cant": "all signatures and values", "anchors": ["src/java_raw_api.c"]}
{"id": "C30", "title": "A raw closure invokes its handler", "statement": "Calling the code pointer of a raw closure obtained from ffi_closure_alloc and prepared with ffi_prep_raw_closure_loc runs the given handler with the given user data.", "quantifier": "for every configuration of trampoline support", "why_tests_cant": "depends on whether static trampolines are available on the host", "anchors": ["src/raw_api.c:ffi_prep_raw_closure_loc", "src/raw_api.c:ffi_translate_args", "src/closures.c:ffi_closure_alloc"]}
{"id": "C31", "title": "Live static trampolines are distinct", "statement": "At any moment the code addresses of all live static trampolines are pairwise distinct, lie at distinct slots of mapped code tables, and their parameter blocks do not overlap.", "quantifier": "for every history of allocations and frees, and every pattern of system-call success and failure", "why_tests_cant": "histories are unbounded and failures are environment-dependent", "anchors": ["src/tramp.c:ffi_tramp_alloc", "src/tramp.c:ffi_tramp_free"]}
{"id": "C32", "title": "A live trampoline's memory is never released", "statement": "A mapped trampoline table is unmapped only when none of its trampolines is live; freed records are never accessed again; no record is freed twice.", "quantifier": "for every history of allocations and frees and every failure pattern", "why_tests_cant": "use-after-free depends on particular histories", "anchors": ["src/tramp.c:tramp_table_free", "src/tramp.c:tramp_del"]}
{"id": "C33", "title": "A trampoline transfers to the target set for it", "statement": "After setting parameters of a live trampoline, executing it jumps to the given target with the given data, and keeps doing so until the parameters are set again or the trampoline is freed, whatever happens to other trampolines.", "quantifier": "for every history over any number of trampolines", "why_tests_cant": "interference between trampolines over unbounded histories", "anchors": ["src/tramp.c:ffi_tramp_set_parms", "src/x86/unix64.S:trampoline_code_table"]}
{"id": "C34", "title": "Trampoline allocation does not leak tables", "statement": "Freeing every live trampoline leaves at most one mapped table; the number of mapped tables never exceeds what the peak of live trampolines since needs.", "quantifier": "for every history", "why_tests_cant": "leaks accumulate over long histories only", "anchors": ["src/tramp.c:tramp_del", "src/tramp.c:tramp_add"]}
{"id": "C35", "title": "Trampoline operations are atomic under any thread schedule", "statement": "Under every interleaving of threads calling the trampoline operations, each operation observes and leaves a consistent allocator state and two threads never obtain the same trampoline.", "quantifier": "for every number of threads and every schedule", "why_tests_cant": "schedules cannot be enumerated", "anchors": ["src/tramp.c:ffi_tramp_lock"]}
{"id": "C36", "title": "ffi_closure_alloc/ffi_closure_free histories are safe", "statement": "Over any history of closure allocations and frees, with any failures of the underlying allocator and trampoline layer, live closures have disjoint memory and distinct code addresses, a failed allocation leaks nothing, and freeing releases exactly the closure's memory and trampoline.", "quantifier": "for every history and failure pattern", "why_tests_cant": "unbounded histories with environment failures", "anchors": ["src/closures.c:ffi_closure_alloc", "src/closures.c:ffi_closure_free"]}
{"id": "C37", "title": "Writable and executable addresses correspond", "statement": "For closures in dual-mapped memory the executable address refers to the same file bytes as the writable address, for every byte of the closure, and conversion between them is inverse.", "quantifier": "for every sequence of mapping extensions and every segment", "why_tests_cant": "depends on growth histories of the mapping", "anchors": ["src/closures.c:dlmmap_locked", "src/closures.c:ffi_data_to_code_pointer", "src/dlmalloc.c:add_segment_exec_offset"]}
{"id": "C38", "title": "The temporary-file search terminates", "statement": "The search for an executable temporary file visits the documented places in order and terminates, whatever files open and whatever mappings fail.", "quantifier": "for every environment behaviour", "why_tests_cant": "environments (mount options, permissions) cannot be enumerated", "anchors": ["src/closures.c:open_temp_exec_file", "src/closures.c:open_temp_exec_file_opts_next", "src/closures.c:dlmmap_locked"]}
{"id": "C39", "title": "Mapped closure memory is backed by allocated file space", "statement": "Every page of a dual mapping handed out is backed by file space that was actually written.", "quantifier": "for every history of mapping successes and failures", "why_tests_cant": "needs a failed mapping followed by a success", "anchors": ["src/closures.c:allocate_space", "src/closures.c:dlmmap_locked"]}
{"id": "C40", "title": "Mach-style trampoline tables stay consistent", "statement": "On platforms with page-remapped trampoline tables, over any history of closure allocations and frees no freed table record is ever accessed and live closures stay distinct.", "quantifier": "for every history", "why_tests_cant": "the corruption needs several partially used tables and a specific free order", "anchors": ["src/closures.c:ffi_closure_alloc (FFI_EXEC_TRAMPOLINE_TABLE)", "src/closures.c:ffi_closure_free"]}
{"id": "C41", "title": "AArch64 HFA recognition is exact", "statement": "A type is passed in vector registers exactly when it is a floating scalar or a homogeneous floating aggregate of one to four members after flattening.", "quantifier": "for every type of any nesting depth", "why_tests_cant": "struct shapes are infinite", "anchors": ["src/aarch64/ffi.c:is_vfp_type", "src/aarch64/ffi.c:is_hfa0", "src/aarch64/ffi.c:is_hfa1"]}
{"id": "C42", "title": "AArch64 ffi_call stays inside its argument area", "statement": "For every prepared signature, stack arguments and copies of large structs written by ffi_call are disjoint and inside the reserved area.", "quantifier": "for every signature", "why_tests_cant": "needs a particular number of by-reference structs", "anchors": ["src/aarch64/ffi.c:ffi_call_int", "src/aarch64/ffi.c:allocate_and_copy_struct_to_stack", "src/prep_cif.c:ffi_prep_cif_core"]}
{"id": "C43", "title": "AArch64 call/closure argument round trip", "statement": "Calling a closure through ffi_call with the same signature delivers exactly the argument bytes.", "quantifier": "for every signature and argument values", "why_tests_cant": "unbounded signatures", "anchors": ["src/aarch64/ffi.c:ffi_call_int", "src/aarch64/ffi.c:ffi_closure_SYSV_inner"]}
{"id": "C44", "title": "RISC-V call/closure argument round trip", "statement": "Calling a closure through ffi_call with the same signature delivers exactly the argument bytes; no register slot holds two arguments.", "quantifier": "for every signature and argument values", "why_tests_cant": "needs exhaustion of one register file with a specific struct shape", "anchors": ["src/riscv/ffi.c:ffi_call_int", "src/riscv/ffi.c:ffi_closure_inner"]}
{"id": "C45", "title": "RISC-V ffi_call stays inside its stack areas", "statement": "The stack argument area and the struct copy area computed by ffi_call suffice for every signature.", "quantifier": "for every signature", "why_tests_cant": "worst-case alignment padding over arbitrary argument lists", "anchors": ["src/riscv/ffi.c:ffi_call_int"]}
{"id": "C46", "title": "RISC-V narrow results are widened", "statement": "An integral result narrower than a register is delivered as an ffi_arg of the same value.", "quantifier": "for every narrow integer type and every value", "why_tests_cant": "only values with the top bit set differ", "anchors": ["src/riscv/ffi.c:ffi_call_int", "src/riscv/ffi.c:unmarshal"]}
{"id": "C47", "title": "Dynamic trampoline code reaches the closure entry", "statement": "Executing the bytes written into a dynamic x86-64 closure trampoline at any code address jumps to the selected entry point with the closure's code address in the designated register, touching no other register.", "quantifier": "for every code address, every entry address, every closure content", "why_tests_cant": "all addresses", "anchors": ["src/x86/ffi64.c:ffi_prep_closure_loc"]}
{"id": "C48", "title": "Static trampoline table code reaches its parameter block", "statement": "The n-th slot of the static trampoline code table, executed wherever the table is mapped, loads its data and target from the parameter block at the same slot index in the adjacent parameter table.", "quantifier": "for every table base address and every slot", "why_tests_cant": "all slots and base addresses", "anchors": ["src/x86/unix64.S:trampoline_code_table", "src/tramp.c:ffi_tramp_set_parms"]}
{"id": "C49", "title": "Raw argument forms with pointers narrower than argument words", "statement": "Translating argument pointers to the raw form and back gives, for every argument, a pointer to memory holding exactly the original argument's bytes, also where pointers are narrower than argument words (x32, MIPS N32).", "quantifier": "for every signature and all argument values on such targets", "why_tests_cant": "only signatures with an argument wider than a pointer in front of another one differ, and only on these targets", "anchors": ["src/raw_api.c:ffi_ptrarray_to_raw", "src/raw_api.c:ffi_raw_to_ptrarray"]}
{"id": "C50", "title": "A closure finds its call interface, handler and user data", "statement": "Calling the code address of a closure prepared with ffi_prep_closure_loc enters the entry point for its ABI with the caller's registers, stack and memory intact, and that entry point finds the cif, handler and user data given; other ABI numbers are refused without any change.", "quantifier": "for all addresses, both kinds of trampolines, all memory layouts including dual mappings", "why_tests_cant": "addresses and mappings are chosen by the system", "anchors": ["src/x86/ffi64.c:ffi_prep_closure_loc", "src/x86/ffiw64.c:ffi_prep_closure_loc_efi64", "src/x86/unix64.S:ffi_closure_unix64_alt"]}
{"id": "C51", "title": "Looking up a closure's segment while another thread allocates", "statement": "The search for the memory segment of a closure, which ffi_closure_alloc, ffi_data_to_code_pointer and ffi_tramp_is_present make without holding the allocator's lock, finds the segment of the closure whatever another thread is doing inside the allocator.", "quantifier": "for every list of segments, every address in it and every interleaving with the stores of the other thread", "why_tests_cant": "the window is a few instructions wide", "anchors": ["src/closures.c:ffi_closure_alloc", "src/dlmalloc.c:segment_holding", "src/dlmalloc.c:add_segment"]}
{"id": "C52", "title": "A closure can be freed by either of its addresses", "statement": "When FFI_CLOSURE_FREE_CODE is set, ffi_closure_free given the code address of a closure does what it does given the writable address.", "quantifier": "for every history of closure allocations and frees, with and without static trampolines", "why_tests_cant": "depends on a build option nobody turns on in tests", "anchors": ["src/closures.c:ffi_closure_free", "src/closures.c:segment_holding_code"]}
{"id": "C53", "title": "Empty trampoline tables of Mach systems are used again or given back", "statement": "A trampoline table none of whose trampolines is in use is the one the next closures come from, or has been given back to the system.", "quantifier": "over every history of closure allocations and frees", "why_tests_cant": "nothing goes wrong visibly; pages and records are only lost", "anchors": ["src/closures.c:ffi_closure_free (FFI_EXEC_TRAMPOLINE_TABLE)"]}
{"id": "C54", "title": "AArch64 calls place arguments per AAPCS64", "statement": "At the call instruction of ffi_call every argument is in the registers or the stack slot where AAPCS64, or Apple's variant of it, looks for it, large structs as copies behind pointers, the static chain is in x18 and the address for a result in memory in x8.", "quantifier": "for every signature of natural types, fixed or variadic, all argument values, all stack addresses and prior contents", "why_tests_cant": "signatures are unbounded, and the interesting cases need particular combinations of used-up registers and alignments", "anchors": ["src/aarch64/ffi.c:ffi_call_int", "src/aarch64/ffi.c:allocate_to_stack", "src/aarch64/sysv.S:ffi_call_SYSV"]}
{"id": "C55", "title": "AArch64 closures receive their arguments", "statement": "When a closure is called as AAPCS64, or Apple's variant, prescribes, the handler gets for every argument a pointer to memory holding its bytes, and these stay when the handler stores its result; the result goes to the closure's slot or the caller's memory.", "quantifier": "for every signature, argument values, register and stack contents", "why_tests_cant": "compilers produce only some signatures in tests", "anchors": ["src/aarch64/ffi.c:ffi_closure_SYSV_inner", "src/aarch64/sysv.S:ffi_closure_SYSV"]}
{"id": "C56", "title": "AArch64 ffi_call stores results faithfully", "statement": "ffi_call writes the value the function returned to the result buffer, integers widened to a full word, and no byte beyond it; without a buffer, with a void result or a result in memory its return code writes nothing.", "quantifier": "for every result type and every register contents", "why_tests_cant": "an overrun of a few bytes is not seen with the usual oversized buffers", "anchors": ["src/aarch64/sysv.S:ffi_call_SYSV", "src/aarch64/ffi.c:ffi_call_int"]}
{"id": "C57", "title": "AArch64 closures return results in the right registers", "statement": "After the handler stored a result of the declared type the closure entry code leaves it in the registers where AAPCS64 looks for a result of this type, integers widened to 64 bits.", "quantifier": "for every result type and value", "why_tests_cant": "values and struct shapes are unbounded", "anchors": ["src/aarch64/sysv.S:ffi_closure_SYSV", "src/aarch64/ffi.c:ffi_closure_SYSV_inner"]}
{"id": "C58", "title": "AArch64 result round trip", "statement": "The result a closure's handler stores arrives unchanged in the result buffer of an ffi_call of the closure with the same signature.", "quantifier": "for every signature with a result in registers, every value", "why_tests_cant": "the two sides share the return codes, so mistakes in them cancel only for some types", "anchors": ["src/aarch64/sysv.S:ffi_call_SYSV", "src/aarch64/sysv.S:ffi_closure_SYSV"]}
{"id": "C59", "title": "Windows on ARM64 variadic calls use general registers only", "statement": "In a variadic call with the Windows ABI floating arguments, including the members of homogeneous aggregates, are in consecutive general registers or stack slots, like integers.", "quantifier": "for every signature and argument values", "why_tests_cant": "the tests have no variadic calls with homogeneous aggregates", "anchors": ["src/aarch64/ffi.c:ffi_call_int", "src/aarch64/ffi.c:extend_hfa_type"]}
{"id": "C60", "title": "RISC-V argument placement", "statement": "At the call every argument is in the register or stack slot that the RISC-V calling convention prescribes for the hard- and soft-float LP64 ABIs, with narrow integers widened, narrow floats boxed, aligned variadic pairs in even registers and large objects behind pointers to copies.", "quantifier": "for every signature, variadic or not, argument values, floating point register width", "why_tests_cant": "unbounded signatures; placement depends on the exhaustion of two register files", "anchors": ["src/riscv/ffi.c:marshal", "src/riscv/ffi.c:ffi_call_int", "src/riscv/sysv.S:ffi_call_asm"]}
{"id": "C61", "title": "RISC-V closures receive their arguments", "statement": "When a closure is called as the RISC-V calling convention prescribes, the handler gets for every argument a pointer to memory holding its value, and the result goes to the closure's slot or the caller's memory.", "quantifier": "for every signature, argument values, register and stack contents", "why_tests_cant": "compilers produce only some signatures in tests", "anchors": ["src/riscv/ffi.c:ffi_closure_inner", "src/riscv/ffi.c:unmarshal", "src/riscv/sysv.S:ffi_closure_asm"]}
{"id": "C62", "title": "RISC-V copies of large arguments are aligned", "statement": "The copies that ffi_call makes of arguments passed by reference are aligned as their types require, disjoint and clear of the stack arguments.", "quantifier": "for every signature and argument values", "why_tests_cant": "misaligned loads work on most machines", "anchors": ["src/riscv/ffi.c:marshal"]}
{"id": "C63", "title": "RISC-V void results leave the result buffer alone", "statement": "When the cif declares a void result, ffi_call ignores rvalue, as documented.", "quantifier": "for every register contents and buffer", "why_tests_cant": "tests of void functions pass no buffer", "anchors": ["src/riscv/ffi.c:ffi_call_int"]}
{"id": "C64", "title": "RISC-V closure result memory", "statement": "The memory a closure's handler is given for a result in registers has the size of the result type, or of ffi_arg for integral types narrower than a register, as documented.", "quantifier": "for every signature and machine state", "why_tests_cant": "an overrun of a few bytes of stack is not seen by tests", "anchors": ["src/riscv/ffi.c:ffi_closure_inner"]}
{"id": "C65", "title": "RISC-V result round trip", "statement": "The result a closure's handler stores is left in the registers of the RISC-V calling convention and arrives in the result buffer of an ffi_call of the closure.", "quantifier": "for every result type in registers and every value", "why_tests_cant": "values and struct shapes are unbounded", "anchors": ["src/riscv/ffi.c:ffi_closure_inner", "src/riscv/ffi.c:ffi_call_int", "src/riscv/sysv.S"]}
{"id": "C66", "title": "RISC-V ffi_call stays inside its block", "statement": "ffi_call writes registers, stack arguments and copies only inside the block it allocates.", "quantifier": "for every signature and argument values", "why_tests_cant": "needs many arguments of one struct shape", "anchors": ["src/riscv/ffi.c:marshal", "src/riscv/ffi.c:ffi_call_int"]}
{"id": "C67", "title": "i386 ffi_call places arguments as the convention says", "statement": "For each 32-bit x86 ABI, ffi_call leaves every argument in the register or stack word that the calling convention names, passes the static chain, and stores only into its block.", "quantifier": "for every system, ABI, signature and argument values", "why_tests_cant": "seven conventions times unbounded signatures; tests that call closures do not see errors made on both sides", "anchors": ["src/x86/ffi.c:ffi_call_int", "src/x86/sysv.S:ffi_call_i386"]}
{"id": "C68", "title": "i386 closures take the arguments of native callers", "statement": "For each 32-bit x86 ABI, a closure's handler sees exactly the arguments that a caller following the convention passed.", "quantifier": "for every system, ABI, signature and machine state", "why_tests_cant": "same", "anchors": ["src/x86/ffi.c:ffi_closure_inner", "src/x86/sysv.S"]}
{"id": "C69", "title": "i386 ffi_call stores results returned in registers", "statement": "ffi_call stores the result a function returned, small integers widened to ffi_arg, and changes no memory beyond the documented size.", "quantifier": "for every system, result type, register contents and buffer", "why_tests_cant": "values are unbounded", "anchors": ["src/x86/sysv.S:ffi_call_i386", "src/x86/ffi.c:ffi_prep_cif_machdep"]}
{"id": "C70", "title": "i386 closures return the handler's result", "statement": "A closure leaves the result its handler stored in the registers the convention names, bit for bit, small integers widened; for results in memory it returns the pointer.", "quantifier": "for every system, result type and value", "why_tests_cant": "values are unbounded, NaNs are not tested", "anchors": ["src/x86/sysv.S:ffi_closure_i386", "src/x86/sysv.S:ffi_closure_STDCALL"]}
{"id": "C71", "title": "i386 Go closures", "statement": "A Go closure called through ffi_call_go is found in the chain register, and removes from the stack what the convention says.", "quantifier": "for every system, ABI and signature", "why_tests_cant": "Go closures are tested for the default ABI", "anchors": ["src/x86/ffi.c:ffi_prep_go_closure", "src/x86/sysv.S:ffi_go_closure_EAX", "src/x86/sysv.S:ffi_go_closure_ECX"]}
{"id": "C72", "title": "i386 raw closures", "statement": "The handler of a raw closure finds the arguments in raw form and has memory for its result; the closure removes from the stack what the convention says.", "quantifier": "for every signature ffi_prep_raw_closure_loc accepts", "why_tests_cant": "raw closures are tested with a few signatures", "anchors": ["src/x86/ffi.c:ffi_prep_raw_closure_loc", "src/x86/sysv.S:ffi_closure_raw_SYSV", "src/x86/sysv.S:ffi_closure_raw_THISCALL"]}
{"id": "C73", "title": "AArch64 ffi_call_SYSV does what the C code expects", "statement": "Started with the block, frame, function, result pointer and flags that ffi_call_int passes, the code reaches the function with every argument in the register or stack slot AAPCS64 names, and afterwards stores the result and returns to ffi_call_int with stack pointer, frame pointer and callee-saved registers as before, changing no other memory; with any kind of pointer authentication.", "quantifier": "for every signature, register and memory contents, load address", "why_tests_cant": "a wrong offset in one of 32 table entries, or a register lost in the epilogue, shows for one type only", "anchors": ["src/aarch64/sysv.S:ffi_call_SYSV", "src/aarch64/ffi.c:ffi_call_int"]}
{"id": "C74", "title": "AArch64 closures reach their handler and return", "statement": "A call of the code address of a closure prepared by ffi_prep_closure_loc, with the code in the closure, reaches ffi_closure_SYSV_inner with the closure's cif, fun and user_data and a frame where it finds the caller's arguments; the result comes back in the registers AAPCS64 names, and the caller's stack pointer and callee-saved registers are restored.", "quantifier": "for every caller state, closure address and alias, load address, signature and result type", "why_tests_cant": "trampolines are position dependent; pointer authentication needs special hardware", "anchors": ["src/aarch64/sysv.S:ffi_closure_SYSV", "src/aarch64/sysv.S:ffi_closure_SYSV_V", "src/aarch64/ffi.c:ffi_prep_closure_loc"]}
{"id": "C75", "title": "AArch64 static trampolines reach their closure", "statement": "The same for closures that use slot i of a static trampoline table.", "quantifier": "for every slot, table address and caller state", "why_tests_cant": "tests use few slots", "anchors": ["src/aarch64/sysv.S:trampoline_code_table", "src/aarch64/sysv.S:ffi_closure_SYSV_alt", "src/tramp.c:ffi_tramp_set_parms", "src/aarch64/ffi.c:ffi_prep_closure_loc"]}
{"id": "C76", "title": "AArch64 Mach trampoline table entries reach their closure", "statement": "The same for closures that use entry i of a Mach trampoline table page.", "quantifier": "for every entry, page size, table address and caller state", "why_tests_cant": "tests use few entries and one page size", "anchors": ["src/aarch64/sysv.S:ffi_closure_trampoline_table_page", "src/aarch64/ffi.c:ffi_prep_closure_loc"]}
{"id": "C77", "title": "AArch64 Go closures reach their handler and return", "statement": "The same for Go closures, called through their first word with their address in x18.", "quantifier": "for every caller state, signature and kind of pointer authentication", "why_tests_cant": "needs hardware with pointer authentication and a build that uses it", "anchors": ["src/aarch64/sysv.S:ffi_go_closure_SYSV", "src/aarch64/sysv.S:ffi_go_closure_SYSV_V", "src/aarch64/ffi.c:ffi_prep_go_closure"]}
{"id": "C78", "title": "x86-64 ffi_call_unix64 reaches the function as the psABI asks", "statement": "Started with the block, flags, result pointer and function that ffi_call_int passes, ffi_call_unix64 reaches the function with every argument in the register or stack slot the psABI names, AL bounding the vector registers, R10 the closure, callee-saved registers unchanged, and its own frame saved above the arguments; no other memory changes.", "quantifier": "for every signature of naturally laid out types, argument values, register and memory contents, load address, and the CET, GNU as and Clang layouts of the tables", "why_tests_cant": "a wrong displacement in one of the loads shows only for signatures that use that register", "anchors": ["src/x86/unix64.S:ffi_call_unix64", "src/x86/ffi64.c:ffi_call_int"]}
{"id": "C79", "title": "x86-64 ffi_call_unix64 stores the result and restores everything", "statement": "When the function returns, the result goes from the registers or x87 stack to the caller's memory (widened for integers), no other memory but the dead frame is written, the x87 stack is as deep as before the call, and ffi_call_int resumes with its stack pointer, frame pointer and callee-saved registers.", "quantifier": "for every result type, result value, register and memory contents", "why_tests_cant": "an x87 stack leak only shows after eight calls", "anchors": ["src/x86/unix64.S:ffi_call_unix64", "src/x86/ffi64.c:ffi_prep_cif_machdep"]}
{"id": "C80", "title": "x86-64 a discarded result leaves no trace", "statement": "With a null result pointer ffi_call stores nothing and returns with stack, callee-saved registers and x87 stack as before the call.", "quantifier": "for every signature and machine state", "why_tests_cant": "an x87 stack leak only shows after eight calls", "anchors": ["src/x86/unix64.S:ffi_call_unix64", "src/x86/ffi64.c:ffi_call_int"]}
{"id": "C81", "title": "x86-64 closures hand the caller's arguments to the inner function", "statement": "ffi_closure_unix64 and ffi_closure_unix64_sse call ffi_closure_unix64_inner, on an aligned stack, with the cif, fun and user_data of the closure in R10 and a register save area and stack pointer from which the handler gets every argument; callee-saved registers and memory outside the frame are unchanged.", "quantifier": "for every signature of naturally laid out types, caller state and closure address", "why_tests_cant": "wrong displacements show only for signatures that use the register", "anchors": ["src/x86/unix64.S:ffi_closure_unix64", "src/x86/unix64.S:ffi_closure_unix64_sse", "src/x86/ffi64.c:ffi_closure_unix64_inner"]}
{"id": "C82", "title": "x86-64 closures return what the handler left", "statement": "After ffi_closure_unix64_inner returns, the result slot goes to the registers or the x87 stack as the psABI asks (the address in RAX for results in memory), nothing else is pushed on the x87 stack, memory is not written and the caller's stack pointer and callee-saved registers are restored.", "quantifier": "for every result type, value and machine state", "why_tests_cant": "a wrong slot in the load table shows for one type only", "anchors": ["src/x86/unix64.S:ffi_closure_unix64"]}
{"id": "C83", "title": "x86-64 Go closures hand the caller's arguments to the inner function", "statement": "ffi_go_closure_unix64 and ffi_go_closure_unix64_sse do the same with the cif and fun of the Go closure in R10 and its address as user data.", "quantifier": "for every signature of naturally laid out types, caller state and closure address", "why_tests_cant": "Go closures are tested with few signatures", "anchors": ["src/x86/unix64.S:ffi_go_closure_unix64", "src/x86/unix64.S:ffi_go_closure_unix64_sse"]}
{"id": "C84", "title": "LoongArch closures called by ffi_call receive the arguments", "statement": "When ffi_call calls a closure prepared with the same cif, the handler's argument pointers point to objects with the members of the caller's arguments, and the result goes where the caller asked.", "quantifier": "for every signature of naturally laid out types without complex numbers, variadic or not, LP64S and LP64D, all argument values and uninitialised memory contents", "why_tests_cant": "tests use few of the combinations of structs, registers used up and stack arguments", "anchors": ["src/loongarch64/ffi.c:ffi_call_int", "src/loongarch64/ffi.c:ffi_closure_inner", "src/loongarch64/sysv.S"]}
{"id": "C85", "title": "LoongArch ffi_call places arguments as the calling convention asks", "statement": "At the call every argument is in the registers or stack slots the LoongArch ABI names, copies of arguments passed by reference are disjoint, aligned and apart from stack arguments and result, and the pointer for a result in memory is in a0.", "quantifier": "for every signature of naturally laid out types without complex numbers, variadic or not, LP64S and LP64D", "why_tests_cant": "the number of placements is too large for tests", "anchors": ["src/loongarch64/ffi.c:marshal", "src/loongarch64/ffi.c:ffi_call_int"]}
{"id": "C86", "title": "LoongArch the argument area holds stack arguments and copies", "statement": "The cif->bytes that ffi_prep_cif computes suffice for the stack arguments from below and the copies of arguments passed by reference from above.", "quantifier": "for every signature", "why_tests_cant": "an overlap shows only with many large structs", "anchors": ["src/prep_cif.c:ffi_prep_cif_core", "src/loongarch64/ffi.c:ffi_call_int", "src/loongarch64/ffi.c:allocate_and_copy_struct_to_stack"]}
{"id": "C87", "title": "LoongArch closures find the arguments of any conforming caller", "statement": "The handler of a closure gets pointers to objects with the members of the arguments that a caller following the ABI passed, and a result in memory goes to the address in a0.", "quantifier": "for every signature, caller state and argument values", "why_tests_cant": "compilers use few of the allowed states, for instance of unspecified register bits", "anchors": ["src/loongarch64/ffi.c:unmarshal", "src/loongarch64/ffi.c:ffi_closure_inner"]}
{"id": "C88", "title": "LoongArch ffi_call stays in its block", "statement": "ffi_call accesses no memory outside the block it allocated with alloca and the objects it was given.", "quantifier": "for every signature", "why_tests_cant": "writes below the block hit dead stack in tests", "anchors": ["src/loongarch64/ffi.c:ffi_call_int"]}
{"id": "C89", "title": "LoongArch narrow integer results are widened", "statement": "A result of an integer type narrower than a word is stored as an ffi_arg of the same value.", "quantifier": "for every value and type", "why_tests_cant": "tests use few values", "anchors": ["src/loongarch64/ffi.c:ffi_call_int", "src/loongarch64/ffi.c:unmarshal_atom"]}
{"id": "C90", "title": "LoongArch results come back through closures", "statement": "What the handler of a closure stored is returned in the registers the ABI names, and ffi_call of the closure stores an object with the same members, writing only memory of the result.", "quantifier": "for every result type not in memory and every value", "why_tests_cant": "writes behind a result are not noticed by tests", "anchors": ["src/loongarch64/ffi.c:ffi_closure_inner", "src/loongarch64/ffi.c:ffi_call_int"]}
{"id": "C91", "title": "LoongArch void results and room for results", "statement": "With a void result ffi_call writes nothing to the result buffer, and the memory a handler gets for a result is as large as documented (an ffi_arg for narrow integers).", "quantifier": "for every machine state and result type", "why_tests_cant": "writes beyond small objects are not noticed by tests", "anchors": ["src/loongarch64/ffi.c:ffi_call_int", "src/loongarch64/ffi.c:ffi_closure_inner"]}
{"id": "C92", "title": "RISC-V ffi_call's assembly code passes arguments and results on", "statement": "ffi_call_asm, given the block, call_context, function and closure pointer of ffi_call_int, enters the function with the arguments where the psABI asks for them and t2 set to the closure pointer, and after the function's return gives ffi_call_int back its callee-saved registers, a stack pointer that is a multiple of 16 and a call_context from which the result is stored; memory outside the call_context is not written.", "quantifier": "for every signature, machine state, address and argument value, RV64 with no, 32-bit or 64-bit floating point registers", "why_tests_cant": "a wrong register or offset shows only for signatures that use it", "anchors": ["src/riscv/sysv.S:ffi_call_asm", "src/riscv/ffi.c:ffi_call_int"]}
{"id": "C93", "title": "RISC-V closures work from the call of their address to the return", "statement": "Calling the address of a closure prepared by ffi_prep_closure_loc runs ffi_closure_inner with the closure's cif, fun and user_data and a frame in which it finds the arguments of the caller; the handler's result is returned in the registers of the psABI, and stack pointer, callee-saved registers and memory outside the frame are restored or unchanged.", "quantifier": "for every closure and code address, caller state and signature whose structs of one float or double get a register", "why_tests_cant": "trampolines are tested at few addresses", "anchors": ["src/riscv/ffi.c:ffi_prep_closure_loc", "src/riscv/sysv.S:ffi_closure_asm", "src/riscv/ffi.c:ffi_closure_inner"]}
{"id": "C94", "title": "RISC-V Go closures work from the call to the return", "statement": "The same for closures prepared by ffi_prep_go_closure and called through their first word with their address in t2, which is the user data of the handler.", "quantifier": "for every closure address, caller state and signature whose structs of one float or double get a register", "why_tests_cant": "Go closures are tested with few signatures", "anchors": ["src/riscv/ffi.c:ffi_prep_go_closure", "src/riscv/sysv.S:ffi_go_closure_asm"]}
{"id": "C95", "title": "LoongArch ffi_call's assembly code passes arguments and results on", "statement": "ffi_call_asm, given the block, call_context, function and closure pointer of ffi_call_int, enters the function with the arguments where the ABI asks for them and t2 set to the closure pointer, and after the function's return gives ffi_call_int back its callee-saved registers and a call_context from which the result is stored; memory outside the call_context is not written.", "quantifier": "for every signature, machine state, address and argument value, LP64S and LP64D", "why_tests_cant": "a wrong register or offset shows only for signatures that use it", "anchors": ["src/loongarch64/sysv.S:ffi_call_asm", "src/loongarch64/ffi.c:ffi_call_int"]}
{"id": "C96", "title": "LoongArch closures work from the call of their address to the return", "statement": "Calling the address of a closure prepared by ffi_prep_closure_loc runs ffi_closure_inner with the closure's cif, fun and user_data and a frame in which it finds the arguments of the caller; the handler's result is returned in the registers of the ABI, and stack pointer, callee-saved registers and memory outside the frame are restored or unchanged.", "quantifier": "for every closure and code address, caller state and signature whose structs of one float or double get a register", "why_tests_cant": "trampolines are tested at few addresses", "anchors": ["src/loongarch64/ffi.c:ffi_prep_closure_loc", "src/loongarch64/sysv.S:ffi_closure_asm", "src/loongarch64/ffi.c:ffi_closure_inner"]}
{"id": "C97", "title": "LoongArch static trampolines work in every slot", "statement": "The same for a closure whose code is one of the 4096 slots of trampoline_code_table mapped with its parameter table behind it.", "quantifier": "for every slot, address of the table and of the closure, caller state and signature whose structs of one float or double get a register", "why_tests_cant": "tests use the first slots only", "anchors": ["src/loongarch64/sysv.S:trampoline_code_table", "src/loongarch64/ffi.c:ffi_tramp_arch", "src/tramp.c:ffi_tramp_set_parms"]}
{"id": "C98", "title": "LoongArch Go closures work from the call to the return", "statement": "The same for closures prepared by ffi_prep_go_closure and called through their first word with their address in t2, which is the user data of the handler.", "quantifier": "for every closure address, caller state and signature whose structs of one float or double get a register", "why_tests_cant": "Go closures are tested with few signatures", "anchors": ["src/loongarch64/ffi.c:ffi_prep_go_closure", "src/loongarch64/sysv.S:ffi_go_closure_asm"]}
{"id": "C99", "title": "LoongArch stack pointer stays a multiple of 16", "statement": "With a block at a multiple of 16, the stack pointer is a multiple of 16 when ffi_call_asm calls the function and when it has returned to ffi_call_int.", "quantifier": "for every signature and machine state", "why_tests_cant": "little code faults on a misaligned stack", "anchors": ["src/loongarch64/sysv.S:ffi_call_asm", "src/loongarch64/ffi.c:ffi_call_int", "src/prep_cif.c:ffi_prep_cif_core"]}
{"id": "C100", "title": "i386 ffi_call's assembly code enters the function with its arguments in place", "statement": "Given the block, frame and registers that ffi_call_int or ffi_raw_call leaves, ffi_call_i386 enters the function with every argument where the convention asks for it and the static chain in its register, with the frame pointer, return address, flags and result address saved behind the arguments, the caller's other registers kept, and nothing else written.", "quantifier": "for every convention, signature, argument value, address and machine state, with and without CET, position-independent code and branch tracking", "why_tests_cant": "a wrong register or offset shows only for signatures that use it", "anchors": ["src/x86/sysv.S:ffi_call_i386", "src/x86/ffi.c:ffi_call_int", "src/x86/ffi.c:ffi_raw_call"]}
{"id": "C101", "title": "i386 ffi_call's assembly code stores the result", "statement": "When the function has returned, the result goes from eax, edx or st(0) to the caller's memory as the type asks, also when no result is wanted the x87 stack is as before the call, ffi_call_int gets back ebx, ebp, esi, edi and its stack, and no memory is written but the result and two words of the frame.", "quantifier": "for every convention, result type, machine state and assembly option", "why_tests_cant": "values left on the x87 stack show only after eight calls", "anchors": ["src/x86/sysv.S:ffi_call_i386", "src/x86/sysv.S:store_table"]}
{"id": "C102", "title": "i386 closures reach ffi_closure_inner with the caller's arguments", "statement": "Calling the address of a closure prepared by ffi_prep_closure_loc, with a dynamic or a static trampoline, runs ffi_closure_inner with the closure's cif, fun and user_data and a frame in which it finds the arguments of the caller.", "quantifier": "for every convention, signature, closure and code address, caller state and assembly option", "why_tests_cant": "trampolines are tested at few addresses and with few conventions", "anchors": ["src/x86/ffi.c:ffi_prep_closure_loc", "src/x86/sysv.S:ffi_closure_i386", "src/x86/sysv.S:ffi_closure_STDCALL", "src/x86/sysv.S:ffi_closure_REGISTER", "src/x86/sysv.S:trampoline_code_table"]}
{"id": "C103", "title": "i386 closures return the handler's result", "statement": "When ffi_closure_inner has returned, the closure's caller gets the result in the registers of the convention, the arguments removed from the stack as the convention says, its callee-saved registers, and memory outside the closure's part of the stack unchanged.", "quantifier": "for every convention, signature, result and machine state", "why_tests_cant": "tests compare the result, not the stack pointer and the other registers", "anchors": ["src/x86/sysv.S:ffi_closure_i386", "src/x86/sysv.S:ffi_closure_STDCALL", "src/x86/ffi.c:ffi_closure_inner"]}
{"id": "C104", "title": "i386 Go closures work from the call to the return", "statement": "The same as the two previous properties for Go closures, whose address is the user data of the handler.", "quantifier": "for every convention with Go closures, signature, closure address and machine state", "why_tests_cant": "Go closures are tested with few signatures", "anchors": ["src/x86/sysv.S:ffi_go_closure_EAX", "src/x86/sysv.S:ffi_go_closure_ECX", "src/x86/sysv.S:ffi_go_closure_STDCALL"]}
{"id": "C105", "title": "i386 raw closures work from the call to the return", "statement": "Calling the address of a closure prepared by ffi_prep_raw_closure_loc runs the handler with the cif, memory for the result, the raw arguments and the user data, and returns the result in the registers of the convention with stack pointer and callee-saved registers restored, on processors with and without branch tracking.", "quantifier": "for both conventions of raw closures, every signature without structs, closure address and machine state", "why_tests_cant": "raw closures are tested with few signatures and without branch tracking", "anchors": ["src/x86/ffi.c:ffi_prep_raw_closure_loc", "src/x86/sysv.S:ffi_closure_raw_SYSV", "src/x86/sysv.S:ffi_closure_raw_THISCALL"]}
{"id": "C106", "title": "i386 ffi_call and closures fit together", "statement": "When ffi_call calls a closure with the same signature, ffi_closure_inner finds the arguments given to ffi_call, and the result it leaves is in the memory given to ffi_call when ffi_call_i386 returns, with the registers and the x87 stack of ffi_call_int as before.", "quantifier": "for every convention, signature, argument and result value, address and machine state", "why_tests_cant": "errors that cancel on one side are not seen from the other", "anchors": ["src/x86/ffi.c:ffi_call_int", "src/x86/sysv.S:ffi_call_i386", "src/x86/sysv.S:ffi_closure_i386", "src/x86/ffi.c:ffi_closure_inner"]}
{"id": "C107", "title": "32-bit ARM recognises homogeneous floating point aggregates", "statement": "vfp_type_p succeeds on every C type, and gives base type and number of members exactly for the types that consist of one to four floating point members of one type.", "quantifier": "for every C type, nested and with complex members", "why_tests_cant": "tests have few nestings of structs and arrays", "anchors": ["src/arm/ffi.c:vfp_type_p", "src/arm/ffi.c:is_hfa0", "src/arm/ffi.c:is_hfa1"]}
{"id": "C108", "title": "32-bit ARM allocates floating point registers as the standard says", "statement": "ffi_prep_cif_machdep gives every floating point argument the lowest free sequence of registers, filling gaps, until one argument goes to the stack, and takes the VFP path exactly if there is such an argument.", "quantifier": "for every signature of C types", "why_tests_cant": "back-filling depends on the order of floats and doubles", "anchors": ["src/arm/ffi.c:ffi_prep_cif_machdep", "src/arm/ffi.c:layout_vfp_args", "src/arm/ffi.c:place_vfp_arg"]}
{"id": "C109", "title": "32-bit ARM computes enough memory for the arguments", "statement": "cif->bytes is a multiple of 8, at least 16 and not less than where any argument, core register or stack, ends.", "quantifier": "for both conventions, variadic or not, and every signature", "why_tests_cant": "an overflow of the block by one word is seen only for rare signatures", "anchors": ["src/prep_cif.c:ffi_prep_cif_core", "src/arm/ffi.c:ffi_prep_cif_machdep"]}
{"id": "C110", "title": "32-bit ARM ffi_call, base standard", "statement": "ffi_call with FFI_SYSV, or for a variadic function, enters the function with every argument in the registers or the stack where the AAPCS wants it, widened, the stack pointer a multiple of 8, the address of the result in r0, the static chain in ip, with the caller's registers kept and nothing written outside the block.", "quantifier": "for every signature, argument value, address, register and memory content", "why_tests_cant": "tests do not see registers, padding and alignment", "anchors": ["src/arm/ffi.c:ffi_call_int", "src/arm/ffi.c:ffi_prep_args_SYSV", "src/arm/sysv.S:ffi_call_SYSV"]}
{"id": "C111", "title": "32-bit ARM ffi_call, VFP standard", "statement": "The same for FFI_VFP, with floating point arguments in s0-s15 or d0-d7.", "quantifier": "for every signature, argument value, address, register and memory content", "why_tests_cant": "register exhaustion of both kinds in one signature is rare in tests", "anchors": ["src/arm/ffi.c:ffi_call_int", "src/arm/ffi.c:ffi_prep_args_VFP", "src/arm/sysv.S:ffi_call_VFP"]}
{"id": "C112", "title": "32-bit ARM closures find their arguments", "statement": "When a closure is called according to the standard, the handler gets pointers to all arguments, the address of a result in memory, cif, function and user data.", "quantifier": "for both conventions, every signature, argument value, caller state and closure address", "why_tests_cant": "the same omission on the calling side hides errors in tests that use ffi_call", "anchors": ["src/arm/ffi.c:ffi_closure_inner_SYSV", "src/arm/ffi.c:ffi_closure_inner_VFP", "src/arm/sysv.S:ffi_closure_SYSV", "src/arm/sysv.S:ffi_closure_VFP"]}
{"id": "C113", "title": "32-bit ARM ffi_call and closures fit together", "statement": "When ffi_call calls a closure with the same signature through a dynamic trampoline, a static trampoline or as a Go closure, the handler sees the arguments given to ffi_call, and its result is in the memory given to ffi_call afterwards.", "quantifier": "for both conventions, every signature, argument and result value, address and machine state", "why_tests_cant": "combinations of trampoline, convention and signature are many", "anchors": ["src/arm/ffi.c:ffi_call_int", "src/arm/sysv.S", "src/arm/ffi.c:ffi_closure_inner_SYSV", "src/arm/ffi.c:ffi_closure_inner_VFP"]}
{"id": "C114", "title": "32-bit ARM ffi_call stores the result and restores the state", "statement": "When the function has returned, its result, in core or floating point registers, is in the caller's memory, the registers a function has to keep and the stack pointer are as before, no other memory is written, and memory for a result that is not wanted is aligned.", "quantifier": "for both conventions, every result type, value and machine state", "why_tests_cant": "tests compare the result and not the bytes behind it", "anchors": ["src/arm/sysv.S:ffi_call_SYSV", "src/arm/sysv.S:ffi_call_VFP", "src/arm/ffi.c:ffi_call_int"]}
{"id": "C115", "title": "32-bit ARM closures return the handler's result", "statement": "When the handler has stored its result, the closure returns to its caller with the result in the registers of the standard and the stack pointer and all registers a function has to keep as they were; the code writes only its own frame.", "quantifier": "for both conventions, every result type, value and machine state", "why_tests_cant": "tests compare the result, not the registers", "anchors": ["src/arm/sysv.S:ffi_closure_SYSV", "src/arm/sysv.S:ffi_closure_VFP", "src/arm/ffi.c:ffi_closure_inner_SYSV", "src/arm/ffi.c:ffi_closure_inner_VFP"]}
{"id": "C116", "title": "32-bit ARM trampolines reach the inner function", "statement": "Calling the address of a closure prepared by ffi_prep_closure_loc, with a dynamic or static trampoline, or a Go closure, gets to the inner function for the convention with cif, function and user data and the caller's argument registers in the frame below the stack arguments.", "quantifier": "for every prepared cif, closure and code address and machine state", "why_tests_cant": "trampolines are tested at few addresses", "anchors": ["src/arm/ffi.c:ffi_prep_closure_loc", "src/arm/ffi.c:ffi_prep_go_closure", "src/arm/sysv.S:ffi_arm_trampoline", "src/arm/sysv.S:trampoline_code_table"]}
{"id": "C117", "title": "ffi_call_win64 enters the function according to the Win64 convention", "statement": "Run instruction by instruction, ffi_call_win64 enters the function with every argument where the Win64 convention has it, in both register files for the first four slots, a hidden result pointer first, the closure in r10 for ffi_call_go, and the return address below the argument area; it writes only that word and the first two words of the frame. FFI_WIN64 with a long double result is excepted (C21).", "quantifier": "for every signature, argument value, way of assembling, address and machine state", "why_tests_cant": "tests check results of a few calls, not registers and memory at the call", "anchors": ["src/x86/win64.S:ffi_call_win64", "src/x86/ffiw64.c:ffi_call_int"]}
{"id": "C118", "title": "ffi_call_win64 stores the result and restores the state", "statement": "When the function has returned, its result is in the caller's memory, widened if integral, nothing else is written, the registers a function has to keep are as before, and the stack pointer is aligned.", "quantifier": "for every result type, value, way of assembling, address and machine state", "why_tests_cant": "tests compare the result and not the bytes behind it or the stack pointer", "anchors": ["src/x86/win64.S:ffi_call_win64", "src/x86/ffiw64.c:ffi_call_int"]}
{"id": "C119", "title": "ffi_closure_win64 gives the handler the arguments", "statement": "Entered directly or through the entry for static trampolines, ffi_closure_win64 calls ffi_closure_win64_inner with the cif, function and user data of the closure and a frame through which the handler reads every argument; a hidden result pointer is handed over and put in the result slot; only the frame and the caller's home area are written.", "quantifier": "for every signature, argument value, closure address, way of assembling and machine state", "why_tests_cant": "tests see the values, not what is written", "anchors": ["src/x86/win64.S:ffi_closure_win64", "src/x86/win64.S:ffi_closure_win64_alt", "src/x86/ffiw64.c:ffi_closure_win64_inner"]}
{"id": "C120", "title": "ffi_closure_win64 returns the handler's result", "statement": "The result the handler has stored is returned in the register of the convention, a hidden pointer in rax; stack pointer, kept registers and memory are as the caller had them.", "quantifier": "for every result type, value, way of assembling and machine state", "why_tests_cant": "tests compare the result, not the registers", "anchors": ["src/x86/win64.S:ffi_closure_win64", "src/x86/ffiw64.c:ffi_closure_win64_inner"]}
{"id": "C121", "title": "Win64 Go closures give the handler the arguments", "statement": "ffi_go_closure_win64 calls ffi_closure_win64_inner with the cif and function of the closure, the closure itself as data, and a frame through which the handler reads every argument.", "quantifier": "for every signature, argument value, closure address, way of assembling and machine state", "why_tests_cant": "Go closures have one test on x86-64", "anchors": ["src/x86/win64.S:ffi_go_closure_win64", "src/x86/ffiw64.c:ffi_prep_go_closure"]}
{"id": "C122", "title": "Win64 calls of closures, instruction by instruction", "statement": "When ffi_call calls a closure of the same signature, the handler reads the bytes given to ffi_call and gets its result pointer, and the result it stores is in the caller's memory when ffi_call_win64 returns.", "quantifier": "for every signature, argument and result value, way of assembling, address and machine state", "why_tests_cant": "an error made on both sides cancels out in tests of this kind, one on one side shows for some signatures only", "anchors": ["src/x86/win64.S", "src/x86/ffiw64.c:ffi_call_int", "src/x86/ffiw64.c:ffi_closure_win64_inner"]}
{"id": "C123", "title": "s390x call information matches the ABI", "statement": "ffi_prep_cif_machdep computes the size of the parameter area and of the copies of arguments passed by reference exactly, and classifies the result as the 64-bit ELF ABI does.", "quantifier": "for every result type and every list of argument types with an area below 4 GiB", "why_tests_cant": "tests have few types per signature and no access to the sizes", "anchors": ["src/s390/ffi.c:ffi_prep_cif_machdep", "src/s390/ffi.c:ffi_check_struct_type"]}
{"id": "C124", "title": "s390x calls enter the function according to the ABI", "statement": "ffi_call, C and assembly code together, enters the function with every argument where the ABI has it: integers extended, floats in the upper half of a register or the lower half of a slot, small structs like integers, larger ones, long double and complex numbers as pointers to copies of their own; the result pointer in %r2, the static chain in %r0. Only the save area and the block of the call are written.", "quantifier": "for every signature, argument value, address and machine state", "why_tests_cant": "tests pass a few signatures and see the values only", "anchors": ["src/s390/ffi.c:ffi_call_int", "src/s390/sysv.S:ffi_call_SYSV"]}
{"id": "C125", "title": "s390x calls store the result and restore the state", "statement": "When the function has returned, the result is at the caller's pointer, integers as 64-bit words; nothing else is written and nothing at all without a pointer; stack pointer and preserved registers are as before.", "quantifier": "for every result type, value, address and machine state", "why_tests_cant": "tests compare the result and not the registers", "anchors": ["src/s390/sysv.S:ffi_call_SYSV", "src/s390/ffi.c:ffi_call_int"]}
{"id": "C126", "title": "s390x closures give the handler the arguments", "statement": "ffi_closure_SYSV and ffi_go_closure_SYSV call ffi_closure_helper_SYSV with cif, function and data of the closure, and avalue points to all argument values; results in memory go to the caller's pointer. Only the frame of the closure and the save area are written.", "quantifier": "for every signature, argument value, closure address and machine state", "why_tests_cant": "tests pass a few signatures", "anchors": ["src/s390/ffi.c:ffi_closure_helper_SYSV", "src/s390/sysv.S:ffi_closure_SYSV", "src/s390/sysv.S:ffi_go_closure_SYSV"]}
{"id": "C127", "title": "s390x closures return the handler's result", "statement": "The result the handler leaves at rvalue is returned to the caller in the register of the ABI.", "quantifier": "for every result type, value and machine state", "why_tests_cant": "tests use few values", "anchors": ["src/s390/ffi.c:ffi_closure_helper_SYSV", "src/s390/sysv.S:ffi_closure_SYSV"]}
{"id": "C128", "title": "s390x closures preserve registers", "statement": "When a closure returns, all registers a function has to preserve are as its caller had them, whatever the handler does to its arguments.", "quantifier": "for every signature, handler and machine state", "why_tests_cant": "the compiled caller in a test rarely has a value in %r6 across the call, and handlers do not assign to arguments", "anchors": ["src/s390/sysv.S:ffi_closure_SYSV"]}
{"id": "C129", "title": "s390x trampolines reach the closure code", "statement": "Calling the address of a closure prepared by ffi_prep_closure_loc, with a dynamic or static trampoline, gets to ffi_closure_SYSV with the closure in %r0 and argument registers and stack pointer unchanged, and cif, function and data where that code looks for them; Go closures hold entry point, cif and function.", "quantifier": "for every closure and code address, all 256 slots, and machine state", "why_tests_cant": "trampolines are tested at few addresses", "anchors": ["src/s390/ffi.c:ffi_prep_closure_loc", "src/s390/ffi.c:ffi_prep_go_closure", "src/s390/sysv.S:trampoline_code_table"]}
{"id": "C130", "title": "s390x calls of closures, instruction by instruction", "statement": "When ffi_call calls a closure of the same signature, the handler reads the values given to ffi_call and gets its result pointer, and the result it stores is in the caller's memory when ffi_call_SYSV returns, with the preserved registers as before, if the handler leaves the saved registers in the frames as they are.", "quantifier": "for every signature, argument and result value, address and machine state", "why_tests_cant": "an error made on both sides cancels out in tests of this kind, one on one side shows for some signatures only", "anchors": ["src/s390/sysv.S", "src/s390/ffi.c:ffi_call_int", "src/s390/ffi.c:ffi_closure_helper_SYSV"]}
{"id": "C131", "title": "or1k calls pass arguments as the ABI does", "statement": "ffi_call enters the function with every argument in the registers or on the stack where the OpenRISC ABI has it, small integers extended, structs as pointers to copies, the result pointer of a struct in %r3; memory outside of the free stack and the copies is not written.", "quantifier": "for every signature with integer, floating point, pointer and struct types, variadic or not, and every argument value, address and machine state", "why_tests_cant": "tests on this target run few signatures", "anchors": ["src/or1k/ffi.c:ffi_call", "src/or1k/ffi.c:ffi_prep_args", "src/or1k/sysv.S:ffi_call_SYSV"]}
{"id": "C132", "title": "or1k calls set aside enough space for arguments", "statement": "ffi_prep_args writes only to the space that ffi_call asked ffi_call_SYSV to set aside.", "quantifier": "for every signature and argument value", "why_tests_cant": "the bytes behind the space hold a saved register that few callers use", "anchors": ["src/or1k/ffi.c:ffi_call", "src/or1k/ffi.c:ffi_prep_args"]}
{"id": "C133", "title": "or1k calls preserve registers", "statement": "When ffi_call_SYSV returns, all registers a function has to preserve are as before.", "quantifier": "for every signature, argument value and machine state", "why_tests_cant": "tests do not look at registers", "anchors": ["src/or1k/sysv.S:ffi_call_SYSV"]}
{"id": "C134", "title": "or1k calls store the result and nothing else", "statement": "When ffi_call_SYSV returns, the result is at the result pointer, integers smaller than a word extended, and no other memory is changed after the return of the function; a void function has no result.", "quantifier": "for every result type, value and machine state", "why_tests_cant": "the result pointer of a void function in tests points to unused memory", "anchors": ["src/or1k/sysv.S:ffi_call_SYSV", "src/or1k/ffi.c:ffi_prep_cif_machdep"]}
{"id": "C135", "title": "or1k closures give the handler the arguments", "statement": "When ffi_closure_SYSV is entered according to the ABI, avalue points to all argument values and the result pointer is the caller's for structs.", "quantifier": "for every signature, argument value and machine state", "why_tests_cant": "tests pass a few signatures", "anchors": ["src/or1k/ffi.c:ffi_closure_SYSV"]}
{"id": "C136", "title": "or1k closures return the handler's result", "statement": "The result the handler leaves at rvalue is loaded into the registers of the ABI.", "quantifier": "for every result type and value", "why_tests_cant": "tests use few values", "anchors": ["src/or1k/ffi.c:ffi_closure_SYSV"]}
{"id": "C137", "title": "or1k trampolines reach the closure code", "statement": "Executing the code that ffi_prep_closure_loc writes gets to ffi_closure_SYSV with the code address in %r13, the stack pointer in %r17 and all other registers but %r15 unchanged; cif, function and data are in the closure and nothing outside of the closure is written.", "quantifier": "for every closure, code and entry address and machine state", "why_tests_cant": "trampolines are tested at few addresses", "anchors": ["src/or1k/ffi.c:ffi_prep_closure_loc"]}
{"id": "C138", "title": "or1k calls of closures", "statement": "When ffi_call calls a closure of the same signature, ffi_closure_SYSV finds the values given to ffi_call and, for a struct result, the caller's pointer.", "quantifier": "for every signature, argument value, address and machine state", "why_tests_cant": "an error made on both sides cancels out in tests of this kind, one on one side shows for some signatures only", "anchors": ["src/or1k/ffi.c:ffi_call", "src/or1k/ffi.c:ffi_closure_SYSV", "src/or1k/sysv.S:ffi_call_SYSV"]}
{"id": "C139", "title": "or1k calls leave avalue as it is", "statement": "ffi_call does not change the caller's array of pointers to arguments.", "quantifier": "for every signature and argument value", "why_tests_cant": "tests do not use the array again after a call", "anchors": ["src/or1k/ffi.c:ffi_call"]}
{"id": "C140", "title": "bfin calls pass every argument where the ABI has it", "statement": "ffi_call_SYSV with ffi_prep_args enters the function with all argument values in R0 to R2 and on the stack as the Blackfin ABI lays down, and the result pointer in P0.", "quantifier": "for every signature, argument value and machine state", "why_tests_cant": "no test runs on this target; structs whose size is no multiple of four have to be followed by other arguments to show an error", "anchors": ["src/bfin/ffi.c:ffi_prep_args", "src/bfin/sysv.S:_ffi_call_SYSV"]}
{"id": "C141", "title": "bfin calls stay in the space made for arguments", "statement": "ffi_prep_args writes only to the cif->bytes bytes that ffi_call_SYSV sets aside; up to there ffi_call_SYSV writes only to its frame.", "quantifier": "for every signature, argument value and machine state", "why_tests_cant": "an overrun by a few bytes need not show", "anchors": ["src/bfin/ffi.c:ffi_prep_args", "src/prep_cif.c:ffi_prep_cif_core", "src/bfin/sysv.S:_ffi_call_SYSV"]}
{"id": "C142", "title": "bfin calls store the result", "statement": "After the function has returned according to the ABI, its result is at the result pointer, small integers extended as their type says, and no other memory outside of the frame is written.", "quantifier": "for every result type and value, machine state and for both readings of R0 = R0.L", "why_tests_cant": "tests use few result types and do not look at memory behind the result", "anchors": ["src/bfin/sysv.S:_ffi_call_SYSV", "src/bfin/ffi.c:ffi_prep_cif_machdep"]}
{"id": "C143", "title": "bfin calls preserve the caller's registers", "statement": "ffi_call_SYSV returns to its caller with R4 to R7, P3 to P5, SP and FP as they were.", "quantifier": "for every signature, result type and machine state", "why_tests_cant": "a lost register shows only if the caller uses it", "anchors": ["src/bfin/sysv.S:_ffi_call_SYSV"]}
{"id": "C144", "title": "bfin calls set the function's global offset table", "statement": "The function is entered with P3 holding the second word of its descriptor.", "quantifier": "for every signature and machine state", "why_tests_cant": "within one load module a wrong value can go unnoticed if the function does not use it", "anchors": ["src/bfin/sysv.S:_ffi_call_SYSV"]}
