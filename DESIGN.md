# Design of the formal model of libffi

The subject is libffi at the commit in `/repo`.  The model is written in Coq
8.16 (Gallina) under `rocq/theories`; nothing of `/repo` is executed.  Each
definition of a model file cites the file and lines it models.

## Layers

* **Model files** (`*Model.v`, `Types.v`, `Base.v`): total computable functions
  following the C text function by function.  C undefined behaviour and `abort`
  are distinct outcomes (`UB`, `Abort`): reads beyond an argument object, writes
  outside a reserved area, accesses to freed records.
* **Spec files** (`*Spec.v`): small, independent statements of what the C language
  or the platform ABI prescribes (C struct layout, SysV eightbyte classification on
  the *flattened* member list, register assignment, ...).  They use no helper of the
  model.
* **Proof files** (`*Proofs.v`).
* **Property files** (`Props*.v`): theorems only, each closed by `exact`, with
  `Print Assumptions` beneath and a concrete `Example` meeting the hypotheses.

## Conventions

* Integers are `Z`.  Wrap-around is explicit (`wrap64`, `wrap32`) where a C
  computation is unsigned of that width and the result can matter.
* A byte is a `Z` in `0..255`; memory objects are byte lists of exact length.
* Uninitialised memory (alloca areas, unused registers) is an arbitrary,
  universally quantified initial value.
* Environment (malloc, mmap, open, ...) is an arbitrary stream of answers,
  universally quantified.

## Trusted base

* Coq's kernel (and `vm_compute` in it).
* Our reading of the C and assembly text, cited definition by definition.
* Assumptions printed by `Print Assumptions`: see the section at the end.

## Plan per property

| id | what is modelled | how it is proved |
|----|------------------|------------------|
| C01 | heap of mutable type objects; `initialize_aggregate`, `ffi_get_struct_offsets` | induction over the (acyclic) type graph; result equals the C layout rule given as a declarative spec |
| C02 | same heap, `ffi_prep_cif_core` | the effective layout of every object is invariant under a successful run; lifted over histories |
| C03 | same | expected to be false (the partial size is left behind); search for a witness, restrict otherwise |
| C04 | `ffi_prep_cif_core`, x86-64 `ffi_prep_cif_machdep` | case analysis; characterisation of the status |
| C05 | `ffi_prep_cif_var` | loop = existential over the variadic suffix |
| C06 | same heap with fuel | fuel bound from acyclicity |
| C07, C08 | `classify_argument`, `merge_classes`, `examine_argument` | structural induction on types, against eightbyte rule over flattened members |
| C09-C11, C14 | `ffi_prep_cif_machdep`, `ffi_call_int` with byte-level register/stack areas | induction over argument lists with a simulation of the ABI register allocator |
| C12, C13 | `ffi_closure_unix64_inner` | same simulation, from any machine state holding the arguments; C13 composes |
| C15 | flags, `rax`, closure entry selection | counting invariant |
| C16-C18 | return path: flags, `ffi_call_unix64` store table, closure load table | case analysis over classes, byte lemmas |
| C19, C20 | pointer-level `ffi_call` on an object store | frame property; counterexamples expected for large structs |
| C21-C23 | `ffiw64.c`, `win64.S` tables | as for unix64 |
| C24-C26, C67-C72 | `x86/ffi.c`, `x86/sysv.S`, 32 bits | placement against an independent assignment (`I386Spec`), for seven conventions; x87 loads and stores as exact functions on bit patterns; counterexamples by running the model |
| C27, C28 | `raw_api.c` | induction over argument lists |
| C29 | `java_raw_api.c` | same |
| C49 | `raw_api.c` on x32 and N32 | as C27; counterexample |
| C30 | raw closure construction with/without static trampolines | direct computation; counterexample expected |
| C31-C35 | `tramp.c` as a heap state machine with environment oracle; threads with a lock | invariant over histories, interleavings |
| C36-C39 | `closures.c` allocation, dual mapping, temp-file search | invariants over histories with environment oracle |
| C51 | stores to segment records, loads of `segment_holding` | invariant of the search; counterexamples |
| C52 | as C36, with FFI_CLOSURE_FREE_CODE | as C36; counterexample |
| C40, C53 | Mach trampoline tables | heap state machine, invariant over histories; counterexamples by running the model |
| C41-C43, C54-C59 | `aarch64/ffi.c`, `aarch64/sysv.S` | as for unix64: placement against an independent assignment (`A64Spec`), invariants over argument lists; counterexamples |
| C73-C77 | `aarch64/sysv.S` instruction by instruction, the stores of `ffi_prep_closure_loc` and `ffi_prep_go_closure`, trampolines | symbolic execution for arbitrary addresses, register and memory contents; joined with C54-C57 |
| C78-C83 | `x86/unix64.S` instruction by instruction with an x87 stack, joined with `call64`/`closure64` | symbolic execution for arbitrary addresses, register and memory contents; joined with C09, C12, C16, C17 |
| C44-C46, C60-C66 | `riscv/ffi.c`, `riscv/sysv.S`, RV64 | placement against an independent assignment (`RvSpec`), for the three widths of floating point registers; counterexamples |
| C84-C91 | `loongarch64/ffi.c`, `loongarch64/sysv.S` | as for RISC-V, whose locations the LoongArch convention shares (`LaSpec`); counterexamples |
| C92-C99 | `riscv/sysv.S` and `loongarch64/sysv.S` instruction by instruction, the stores of `ffi_prep_closure_loc` and `ffi_prep_go_closure`, trampolines | symbolic execution of one text with two instances, for arbitrary addresses, register and memory contents; joined with C60-C66 and C84-C91 |
| C100-C106 | `x86/sysv.S` (32 bits) instruction by instruction, the code written by `ffi_prep_closure_loc` and `ffi_prep_raw_closure_loc`, static trampolines | symbolic execution for twelve ways of assembling (CET, position-independent code, table padding) and arbitrary addresses, register and memory contents; joined with C24-C26 and C67-C72; counterexamples |
| C107-C116 | `arm/ffi.c`, `arm/sysv.S`, static and dynamic trampolines, Go closures (32-bit ARM, base standard and VFP) | location assignment of the AAPCS written as rules; the C code against it by induction over the arguments, the assembly code by symbolic execution for arbitrary addresses and contents; both joined; counterexamples |
| C117-C122 | `x86/win64.S` instruction by instruction | symbolic execution for eight ways of assembling (CET, table padding, argument registers of the C code) and arbitrary addresses, register and memory contents; joined with C21-C23; counterexamples |
| C123-C130 | `s390/ffi.c` and `s390/sysv.S` for 64-bit z/Architecture, dynamic and static trampolines, Go closures | location assignment of the ELF ABI (`S390Spec`); the C code against it by induction over the arguments, the assembly code by symbolic execution for arbitrary addresses and contents; both joined; counterexample |
| C131-C139 | `or1k/ffi.c` and `or1k/sysv.S` | location assignment of the OpenRISC ABI (`Or1kSpec`); the C code against it by induction over the arguments, the assembly code with its delay slots by symbolic execution; both joined; counterexamples as complete runs of the machine |
| C140-C144 | `bfin/ffi.c` and `bfin/sysv.S` | words of the Blackfin ABI (`BfinSpec`); `ffi_prep_args` by induction over the arguments, the assembly code with its table of return paths by symbolic execution; C140, C142 and C144 are false and proved with exceptions |
| C47, C48 | byte-level x86-64 instruction decoding for the few instructions used | symbolic execution for arbitrary addresses |
| C50 | the same plus the stores of `ffi_prep_closure_loc` | byte memory with aliasing through dual mappings |

## What is modelled, what is not

| files of the model | code of libffi |
|---|---|
| `Types`, `TypeHeapModel` | `src/types.c`, `src/prep_cif.c` (all functions) |
| `Unix64Model` | `src/x86/ffi64.c` except trampoline code and the Win64 dispatch; `src/x86/unix64.S` call and closure paths: argument loads, store and load tables |
| `Win64Model` | `src/x86/ffiw64.c` except trampoline code; `src/x86/win64.S` call and closure paths; `ffi_call` and the dispatch of `src/x86/ffi64.c`; here memory is a list of blocks and the argument vector a list of addresses |
| `PrepX86Model` | the complete `ffi_prep_cif` on x86-64: generic code over type objects, then the machine dependent code on the trees read from them |
| `RawModel` | `src/raw_api.c`, `src/java_raw_api.c`: sizes and translations, parameterised by byte order and word sizes |
| `TrampCodeModel` | the trampoline bytes of `ffi_prep_closure_loc`, the slots of `trampoline_code_table` and the `_alt` entries of `src/x86/unix64.S` and `win64.S`, as machine code run by an interpreter for the dozen instruction forms they use |
| `ClosurePrepModel` | `ffi_prep_closure_loc` (x86-64, LP64), `ffi_prep_raw_closure_loc` and the loads of the closure entry points, over byte memory seen through a mapping of virtual to physical addresses |
| `TrampModel` | `src/tramp.c` (all functions) as programs over a typed heap, one step per load, store or external call, run by any number of threads; the search of `/proc/<pid>/maps` is one query of the environment, the mapped file is assumed to show the code table, the counters are unbounded integers |
| `TempFileModel` | `src/closures.c:589-888`: the table of places, `open_temp_exec_file*`, `dlmmap_locked`, `allocate_space`; the answers of open, mkstemp, access, getenv, getmntent, write, mmap and ftruncate are oracles |
| `SegModel` | `src/closures.c` `dlmmap`, `dlmunmap`, `segment_holding_code`; the segment list of `src/dlmalloc.c` (`sys_alloc`, `add_segment`, `sys_trim`, `release_unused_segments`) over an address space given byte by byte; chunk headers and bins of dlmalloc are not modelled |
| `ClosureAllocModel` | `ffi_closure_alloc`, `ffi_closure_free`, `ffi_data_to_code_pointer`, `ffi_tramp_is_present` over `SegModel`; dlmalloc and dlfree by their contract, ffi_tramp_alloc by C31-C35 |
| `SegRaceModel` | the stores of `add_segment` and of the merges of `sys_alloc`, interleaved with the loads of `segment_holding`; sequentially consistent memory, stores in source order |
| `MachModel` | `src/closures.c:176-384`, the trampoline tables of Mach systems; the page remapping and its failures are one oracle answer; locking (a pthread mutex around each operation) is not modelled |
| `A64Model` | `src/aarch64/ffi.c`: `is_vfp_type`, `ffi_prep_cif_machdep(_var)`, `ffi_call_int`, `ffi_closure_SYSV_inner`; `src/aarch64/sysv.S`: `ffi_call_SYSV`, `ffi_closure_SYSV(_V)`; Linux, Apple and Windows variants, little-endian; not the go and Mach entries |
| `A64AsmModel`, `A64ClosureModel`, `ByteMem` | `src/aarch64/sysv.S` (LP64, little-endian) as assembly text that is assembled and run: `ffi_call_SYSV`, `ffi_closure_SYSV(_V)` and `_alt`, the Go entries, `trampoline_code_table`, the Mach page; pointer authentication off, Linux style with either key, or arm64e; `ffi_prep_closure_loc`, `ffi_prep_go_closure` of `src/aarch64/ffi.c` as stores to bytes, and the 16 trampoline bytes, decoded; not ILP32, not the Windows assembler file `win64_armasm.S`, not stack probes |
| `X64AsmModel`, `X64AsmBlock` | `src/x86/unix64.S` (LP64) as assembly text that is assembled and run: `ffi_call_unix64`, `ffi_closure_unix64(_sse)`, the Go entries and both tables, with and without CET and with the table slots padded as by GNU as or by Clang; registers, vectors, x87 stack, carry and zero flags, byte memory; `ffi_call_int` of `ffi64.c` up to the call, as bytes of the block. The `_alt` entries and trampolines are in `TrampCodeModel`. Not modelled: CFI, x32, instruction encodings other than their lengths, MXCSR and x87 control words, exceptions of a full x87 stack (a ninth push is a fault) |
| `RvModel` | `src/riscv/ffi.c` except trampolines and go closures; `src/riscv/sysv.S`: `ffi_call_asm`, `ffi_closure_asm`; RV64 with no, 32-bit and 64-bit floating point registers (LP64, LP64F, LP64D); not RV32, not a build with 128-bit floating point registers |
| `LaModel` | `src/loongarch64/ffi.c` except trampolines and go closures; `src/loongarch64/sysv.S`: `ffi_call_asm`, `ffi_closure_asm`; without and with 64-bit floating point registers (LP64S, LP64D); a variadic float, which `ffi_prep_cif_var` rejects, is not modelled |
| `RiscAsmModel` | `src/riscv/sysv.S` (RV64) and `src/loongarch64/sysv.S`: `ffi_call_asm`, `ffi_closure_asm`, `ffi_go_closure_asm` and, on LoongArch, `trampoline_code_table`; `ffi_prep_closure_loc` and `ffi_prep_go_closure` of both `ffi.c` as stores to bytes, and the trampoline words, decoded. The files have the same structure, so there is one text with the registers and opcodes of either. Every instruction counts four bytes: `call` of RISC-V, which is two, is taken as one and compressed encodings are ignored, which moves code addresses only. Not modelled: CFI, RV32, 32-bit floating point registers on LoongArch, where the file uses macros (`FLARG`, `FSARG`) it does not define and cannot be assembled |
| `I386Model`, `X87Model` | `src/x86/ffi.c`: `ffi_prep_cif_machdep`, `ffi_call_int`, `ffi_closure_inner`, `ffi_raw_call`, the choices of `ffi_prep_closure_loc`, `ffi_prep_go_closure`, `ffi_prep_raw_closure_loc`; `src/x86/sysv.S`: `ffi_call_i386`, the closure, Go closure and raw closure entries with their load tables; the x87 instructions `fld` and `fstp` for 4, 8 and 10 bytes, default rounding; Linux-like, Darwin and Windows variants; not Microsoft's assembler file, not the assertion of debug builds |
| `I386AsmModel` | `src/x86/sysv.S` as assembly text that is assembled and run: `ffi_call_i386`, `ffi_closure_i386`, `_STDCALL`, `_REGISTER`, their `_alt` entries, the Go entries, the raw closures, all tables, a slot of `trampoline_code_table`; with and without CET, absolute, hidden PIC and PLT addressing, tables with `.org` or `.balign`; general registers, x87 stack, tracking of indirect branches, byte memory; the bytes written by `ffi_prep_closure_loc` and `ffi_prep_raw_closure_loc`, decoded. Calls into C (`ffi_closure_inner`, the handler, the called function) are arbitrary. Not modelled: CFI, Windows and Darwin directives, compilers without `regparm`/`fastcall` (`HAVE_FASTCALL` 0: with PLT addressing the save of ebx at 40(%esp) would then overwrite the copied user data), condition flags (no code uses them), encodings other than their lengths |
| `ArmModel`, `ArmAsmModel` | `src/arm/ffi.c`: `is_hfa0`, `is_hfa1`, `vfp_type_p`, `place_vfp_arg`, `layout_vfp_args`, `ffi_prep_cif_machdep(_var)`, `ffi_align`, `ffi_put_arg`, `ffi_prep_args_SYSV`, `_VFP`, `ffi_prep_incoming_args_SYSV`, `_VFP`, `ffi_call_int`, `ffi_closure_inner_SYSV`, `_VFP`, `ffi_prep_closure_loc`, `ffi_prep_go_closure`; `src/arm/sysv.S`: `ffi_call_SYSV`, `ffi_call_VFP`, `ffi_closure_SYSV`, `_VFP`, their `_alt` entries, the Go entries, the tables, the trampoline and a slot of `trampoline_code_table`. ARM state, little-endian, version 5 or later of the architecture; every instruction has four bytes. Not modelled: Thumb code (bit 0 of a code address is part of the address), big-endian, Windows, the Mach table (for its logic see C40), systems without VFP registers, CFI, cache flushing |
| `W64AsmModel` | `src/x86/win64.S` as assembly text that is assembled and run: `ffi_call_win64` with its table, `ffi_closure_win64`, `ffi_closure_win64_alt`, `ffi_go_closure_win64`; with and without CET, table with `.org` or `.balign`, called from C code of either convention; general and vector registers, carry and zero, tracking of indirect branches, byte memory; the fields of the frame and of closure objects as `src/x86/ffiw64.c` stores them. Calls into C are arbitrary, the call of abort ends the run. Not modelled: CFI and SEH directives, `win64_intel.S`, encodings other than their lengths, shadow stacks |
| `S390Model`, `S390AsmModel` | `src/s390/ffi.c`: `ffi_check_struct_type`, `ffi_prep_cif_machdep`, `ffi_call_int`, `ffi_closure_helper_SYSV`, `ffi_prep_closure_loc`, `ffi_prep_go_closure`; `src/s390/sysv.S`, 64-bit part: `ffi_call_SYSV` with its table, `ffi_go_closure_SYSV`, `ffi_closure_SYSV`, `trampoline_code_table`; the bytes of the dynamic trampoline, decoded. Registers hold 64-bit words, memory bytes, big-endian. The handler is arbitrary. Pointer 0 is NULL. Not modelled: the 31-bit ESA/390 code, CFI, the condition code (no code uses it), the C frame of `ffi_call_int` (the address of its block is taken to be 160 bytes above the stack pointer, which is what the C code itself relies on when it puts overflow arguments at the start of the block) |
| `Or1kModel`, `Or1kAsmModel` | `src/or1k/ffi.c`, all functions: `ffi_prep_args`, `ffi_call`, `ffi_closure_SYSV` (up to and after the call of the handler), `ffi_prep_closure_loc`, `ffi_prep_cif_machdep(_var)`; `src/or1k/sysv.S`: `ffi_call_SYSV`; the bytes of the trampoline, decoded. Registers hold 32-bit words, memory bytes, big-endian; pc, next pc (delay slots) and the flag. `ffi_prep_args` is compiled code: the model's memory, and anything below its stack pointer. Not modelled: alignment of accesses, cache flushing, int overflow of sizes, CFI, `long double` (8 bytes, would be copied like double) and complex types, the compiled frame of `ffi_closure_SYSV` (its asm statement sets %r11 and %r12 behind the compiler's back; that they reach the caller is assumed) |
| `BfinModel` | `src/bfin/ffi.c`: `ffi_prep_cif_machdep`, `ffi_prep_args`; of `ffi_call` only the arguments it hands to `ffi_call_SYSV` (the `alloca` for a missing struct result is not modelled); `src/bfin/sysv.S`, all instructions with four bytes each; misaligned accesses are no faults; the backend has no closures |

Not modelled: CFI/unwind annotations, cache flushing, the C library, the kernel's
behaviour behind `mmap` and friends (oracles), compilers of caller and callee.
Machine instructions are modelled by their effect on the registers and memory the
property is about.

## Choices that matter for reading the theorems

* `natural t`: a type built from the predefined scalar and complex types by struct
  nesting, with the C layout.  Theorems on ABIs quantify over these.
* Padding bytes inside a struct are not part of its value (`same_value`): the code
  copies only four bytes of an eightbyte holding one float, so padding is not
  preserved and need not be.
* `long double` has ten value bytes out of sixteen.
* `stack_used + 64 < 2^32`: `cif->bytes` is 32 bits wide; larger signatures wrap.

* The bytes of `static_slot` and `alt_entry` are the assembler's encoding of the source
  text; where the assembler may choose (short or near jump, endbr64 or not, LP64 or x32)
  the theorems hold for every choice.
* `may_call` (TrampModel): clients set parameters of, free and ask for the address of
  trampolines they got and did not free; setting and freeing need exclusive ownership.
* `live y` / `inuse y` (TrampSpec): `inuse` also has trampolines whose free has not
  completed, for which nothing is promised any more.
* `16 <= tc_size <= tc_map`: a parameter block has two words and a table at least one slot.
* `lawful` (SegSpec): mmap returns memory that was not mapped. `malloc_contract`,
  `free_contract`, `tramp_contract` (ClosureAllocSpec): what C36 takes from dlmalloc and from
  the trampoline layer. `both`: the second munmap of a pair does not fail alone.
* AArch64: `signature_ok` (A64Main) has natural types, no 16-byte long double where the
  system has none, and a number of fixed arguments on variadic signatures. `fits` says the
  copies of large structs do not reach down to the stack arguments; `area_enough` is a
  condition on the signature alone that implies it. `pointer_slots_ok`: the places of
  pointers to copies on the stack do not depend on whose alignment is taken. `held`: the
  registers and stack hold the arguments where the ABI says; `seen`: the handler's pointers
  point to them.
* AArch64 code: `pac_ok e a m` says that authenticating what signing `a` with modifier `m` gave
  gives `a` again; nothing else is assumed of the signature functions. The called function keeps
  x19-x29 and the frame below; `serves` is what a closure has to do (A64AsmTop). Instruction and
  data memory are separate for the library's text, and the same for trampolines written at run
  time.
* RISC-V: `fl` is the width of floating point registers in bytes (0, 4, 8). `signature_ok`
  has natural types without complex members (the backend does not define them).
  `lone_reals_ok`: a non-variadic struct whose only scalar is a real number finds a floating
  point register. `held`: as on AArch64; `received`: the handler's pointers point to objects
  with the same scalar members.
* LoongArch: as RISC-V with `fl` 0 or 8; unused bits of floating point registers are anything.
* RISC-V and LoongArch assembly: `reach` runs instructions of the text until control leaves it; the state behind `ffi_closure_inner` and behind the called function is arbitrary but for what the ABI preserves.
  `promoted`: no variadic float. `copies_end`: where the copies, put below each other from the
  end of the area, end. `ubuf_ok`: memory for a result has room for the word an integer is
  stored as.
* i386: `ctype32 o` are the C types of system `o`; `passable` excludes complex numbers of at
  most four bytes as arguments; `flat` are types that leave no padding on the stack and do not
  end the use of registers. Where structs aligned to 16 bytes go follows the comment at
  `src/x86/ffi.c:382-388`; the conventions with registers follow gcc and the table of
  `src/x86/ffi.c`. `signalling`: the object is a signalling NaN, which the processor changes
  when it is loaded. `x87_struct` excludes structs of one floating point number on Darwin.
* i386 assembly: `given`: registers and memory as `ffi_call_int` leaves them, the block being the
  one of C67; `entered_ok`: stack, frame and registers when the function is entered; `tracked`: a
  processor that tracks indirect branches runs code assembled with CET; `inner_ready`: the state in
  which `ffi_closure_inner` is called; `inner_done`: what is asked of it when it returns;
  `result_left`, `result_out`: a result in the closure's memory, and in the registers of the
  convention. `sp + 44` is the address of the return address on entry to a closure.
* `dynamic_alloc`, `static_alloc`: what `ffi_closure_alloc` provides, see C31-C37.
* ARM: `ctype` are the C types; `rtype_ok` also has void. `places hard rt ts`: where arguments go;
  `held`: registers and stack hold the arguments there; `seen`: the handler's pointers point to them.
  `tidy_call`: with floating point registers, no argument for core registers follows one of that kind
  that went to the stack while core registers were left; `bad_result`: a complex result in memory.
  `base` is the block that `ffi_call_int` allocates, `call_ok` says that it is aligned and inside the
  address space and, with the caller's memory for the result, apart. `whole_call`: a call and its return.
  `trip_ok`: what a call of a closure by `ffi_call` has to achieve; `apart`: the closure is not in the block.
* s390x: `setup`: a call of `ffi_call_int` (result pointer 0: NULL); [sp, hi) is the register save area of
  the called function and the block from alloca, the argument objects are outside. `incoming`: a function
  is entered according to the ABI. `place`, `word`, `carries`, `passed`: where arguments go and what is
  there; `refs_within`, `refs_outside`: where the copies are. `returned`, `stored`: a result in registers
  and at the result pointer. `saved_x`, `saved_f`: the registers a function has to preserve. The values of
  the registers that hold floats are arbitrary in their lower half.
* or1k: `setup`: [bot, sp) is free stack, the copies of structs are in [sp, top), the argument objects
  outside of both. `call_with ... Q`: from the entry of `ffi_call_SYSV` execution gets to `ffi_prep_args`, and
  if that does what its model does, to the function with registers and memory `Q`. `fn_done`: the function
  preserves registers and the registers saved in [sp-24, sp). `whole_run`: one complete call with its
  states. `places`, `extent`, `gap`: where arguments go, how far, whether %r8 stays free.
* bfin: `setup`: the state in which `ffi_call` enters `ffi_call_SYSV`; the global offset table, the
  descriptors and the argument objects are outside the stack in use.  `prep_back`: the compiled
  `ffi_prep_args` is taken not to use the twelve bytes at its stack pointer, which the ABI gives it for
  its register arguments and which are the first words of the arguments it builds.  `R0 = R0.L` is
  treated both ways, as sign and as zero extension (`g_sign`).

## Findings (properties that do not hold of the code)

* C03: a rejected struct keeps the partial size computed before the failure, so
  preparing it again accepts it (`{int, struct {}}`).
* C05: `ffi_prep_cif_var` recognises float by the address of `ffi_type_float`.
* C10: `ffi_prep_cif_machdep` aligns stack offsets relative to 0, `ffi_call_int`
  aligns absolute addresses; the area is only 16-byte aligned, so an argument with a
  user-supplied alignment of 32 or more can be written past the reserved area.
* C16, C17: `struct { long double }` is classified X87 but `ffi_prep_cif_machdep`
  picks the rax/rdx return code, so the value in st(0) is neither read nor set.
* C19: `ffi_call` overwrites the caller's `avalue[i]` with the address of its own
  stack copy for structs above 16 bytes (above 8 in the Win64 code); a second call with
  the same array reads dead stack memory.
* C20: Win64 passes structs of 3, 5, 6 or 7 bytes by reference without copying them,
  so a callee that modifies its parameter modifies the caller's object.
* C23: `FFI_WIN64` functions returning `long double` are prepared successfully, but
  `ffi_call_win64` has no store for that flags value and aborts.
* C29: `ffi_java_rvalue_to_raw` shifts pointer results into the first Java word when
  Java words have 4 bytes and argument words 8 on a big-endian target;
  `ffi_java_raw_to_rvalue` does not shift them back.
* C30: `ffi_translate_args` takes its user data, the code location, for the raw
  closure. With static trampolines the code location is a slot of the code table, so the
  handler and its user data are read from the instructions of following slots.
* C36, C37: `dlmunmap` unmaps the executable half first. If the second munmap then fails,
  dlmalloc keeps the segment: closures allocated there later have code addresses that are
  unmapped, or that belong to another closure.
* C38: without HAVE_MNTENT the last row of the table of places is not a repeated one, so
  `dlmmap_locked` starts again at the first place and never ends if files open but
  cannot be mapped.
* C39: after a failed mapping `dlmmap_locked` truncates the file but the file position stays
  behind the end, so the next space is written behind a hole and the region handed out
  was never allocated.
* C51: `ffi_closure_alloc`, `ffi_data_to_code_pointer` and `ffi_tramp_is_present` walk over
  the segment list without dlmalloc's lock; in the middle of `add_segment` or of a
  downward merge they miss a segment (null dereference) or take a wrong offset.
* C52: with FFI_CLOSURE_FREE_CODE and static trampolines `ffi_closure_free` does not
  recognise the code address and frees the trampoline's memory.
* C40: `ffi_closure_free` (Mach) moves a table to the front without unlinking it. With three
  tables, two frees from the first two, then emptying the second and the third, a record
  already given back is written. `ffi_trampoline_table_alloc` uses calloc results unchecked.
* C53: a first table that empties stays; once another table is moved to the front it is
  neither used nor given back.
* C49: on little-endian targets `ffi_raw_to_ptrarray` advances by size / sizeof(void*)
  words, `ffi_ptrarray_to_raw` by size / FFI_SIZEOF_ARG; on x32 (4 and 8) the argument
  after a double or a 64-bit integer is looked for in the wrong word.
* C42: on AArch64 `cif->bytes` has no room for the pointers to copies of large structs that
  are themselves on the stack; with nine 32-byte structs the ninth pointer is written over
  the ninth copy.
* C43: `ffi_call` aligns the slot of such a pointer like a pointer, `ffi_closure_SYSV_inner`
  like the struct: a closure with nine ints and a struct with a long double reads the wrong
  slot; on Apple systems one with eight ints, a char and a struct of twenty chars.
* C59: on Windows `extend_hfa_type` writes the members of a homogeneous aggregate 16 bytes
  apart, for a variadic call into general registers, which are 8 bytes apart.
* C77: with pointer authentication on Linux `ffi_go_closure_SYSV_V` does not sign the return address
  (`SIGN_LR` is missing) but leaves through `AUTH_LR_AND_RET`.
* C79/C82: for a struct of one long double `ffi_call_unix64` stores RAX and RDX and leaves the value on the
  x87 stack; closures push nothing (as C16/C17, with the stack depth).
* C80: `ffi_call` with a null result pointer turns the flags to `RET_VOID` (ffi64.c:576-585), so a long double or
  complex long double result is never popped; after eight such calls the x87 stack is full.
* C44, C60, C61: `struct_passed_as_elements` does not ask for a free floating point register
  when the struct has one member, and `marshal_atom` does not check: the ninth struct of one
  double is stored in `fa[8]`, which is `a[0]`.
* C66: with nineteen such structs the last is written behind `call_context`, beyond the block.
* C45: `cif->bytes` has 32 bits.
* C46: `ffi_type_uint32` results keep the sign extension of the ABI when stored as ffi_arg.
* C62: copies of large structs are placed at multiples of 8, whatever their alignment.
* C63: `ffi_call` with a void result and a buffer stores a byte there.
* C64: a closure's result slot has the size of the type, one byte for a char, where the
  documentation lets the handler store an ffi_arg.
* C84, C85: LoongArch has the RISC-V code for structs of one float or double (C44).
* C86: LoongArch puts the copies of large structs into the area that `ffi_prep_cif_core` computed
  as if structs were passed by value, and the pointers beyond a7 into the same area: of nine
  structs of three words the last pointer overwrites the last copy.
* C88: the copies are aligned downwards, for which nothing is set aside: f(struct of two long
  doubles, struct of three words) writes below the block.
* C89, C91: as C46, C63, C64.
* C90: `unmarshal_atom` stores a word for every integer type, also for the integer of
  struct { float; int; }, where it ends four bytes behind the object.
* C99: `ffi_call_asm` returns with the stack pointer at the call_context, `cif->bytes` above the
  block; LoongArch, unlike RISC-V, does not round that number to 16.
* C24: `ffi_closure_REGISTER` has the two words on the stack the wrong way round: the return
  address is taken for the closure. With FFI_PASCAL or FFI_REGISTER and a result in memory the
  pointer and the first argument are stored in the same word of `ffi_call`'s frame. Complex
  chars and shorts as arguments abort.
* C67, C68: with FFI_PASCAL and FFI_REGISTER the arguments are at the top of the 16-byte aligned
  area, not at the stack pointer (a debug build asserts here).
* C25: `ffi_closure_inner` sets `narg_reg` to 2 at 64-bit integers and structs and then subtracts
  two words that were on the stack: FASTCALL(long long) pops nothing, FASTCALL(4-byte struct)
  pops 2^28-4 bytes. Alignment padding in `cif->bytes` that is not on the stack is popped too.
  PASCAL and REGISTER closures pop nothing.
* C71: Go closures for THISCALL and FASTCALL end in the table that pops nothing.
* C26: `ffi_raw_call` clears bit 4 of the address instead of the low four bits, copies the size
  rounded up to 16 bytes, and advances by `z` words where `z` is a number of bytes.
* C72: raw closures give the handler 16 bytes for a struct of any size and show it the hidden
  pointer as first argument; those for THISCALL leave the stack arguments.
* C69, C70: on Darwin a struct of one float or double is returned in st(0); libffi uses eax. A
  signalling NaN returned by a closure is made quiet.
* C101: for struct (float) on Darwin the value also stays on the x87 stack for good.
* C102: the two words of `ffi_closure_REGISTER`, at the level of instructions: cif, function and
  user data are read from the code at the return address, and the closure returns to itself.
* C105: `jmp *%ecx` of the raw closures lacks the NOTRACK prefix that the other tables have, and
  their trampoline has no ENDBR32: with CET both fault.
* C111, C112: with floating point registers, an argument for the core registers that goes to the stack
  because it is too long and the stack is in use must close the core registers (AAPCS C.6); neither
  `ffi_prep_args_VFP` nor `ffi_closure_inner_VFP` does that. Nine doubles, three ints, a long long and
  an int: the last int is put in r3, a compiled function reads it from the stack.
* C109, C110: `ffi_prep_cif_core` does not count the hidden pointer of complex results, so the block is
  too small by a word that can push an 8-byte argument: complex double f(long long, int) under the base
  standard finds the saved frame pointer in place of the int.
* C114: complex char is stored as a word, two bytes beyond the object. When the result is not wanted,
  the memory for it is at frame + 20, not a multiple of 8. `ffi_call_SYSV` returns with sp = frame + 8
  (harmless: the caller has a frame pointer).
* C118: `ffi_call_win64` returns with rsp = frame + 16, inside the memory `ffi_call_int` got from
  alloca (the comment in the source says so). `cif->bytes` is a multiple of 8 only, so with five,
  seven, ... slots rsp is not a multiple of 16 in the rest of `ffi_call_int`. A long double result of
  16 bytes under FFI_WIN64 ends in the call of abort.
* C128: `ffi_closure_SYSV` keeps %r6, a preserved register that also carries the fifth integer argument,
  in the save area the handler's `avalue` points into, and reloads it from there. A handler that assigns to
  its fifth integer argument (in C a parameter is an ordinary object) changes the caller's %r6.
  The other preserved registers are safe.
* C132, C133: `ffi_call` of or1k counts 8 bytes for a double word, but `ffi_prep_args` also skips four
  bytes if only one register is left. Without variadic arguments (for which 24 bytes are added) the last
  word then overwrites %r20 as saved by `ffi_call_SYSV`: after a call with five words and a double word
  the caller's %r20 holds half of the argument.
* C134: `ffi_call_SYSV` of or1k stores %r11 at the result pointer for void functions too, so a null pointer
  there is written to.
* C139: `ffi_call` of or1k changes `avalue`: elements for structs point to stack memory that is
  gone when it returns.
* C140: `ffi_prep_args` of bfin does not round `argp` up after structs of 5, 6, 7, 9, ... bytes; what
  follows is misplaced.
* C142: `ffi_prep_cif_machdep` of bfin has structs of 5 to 7 bytes as void, so the result in R0, R1 is
  lost; for structs of 1 to 3 bytes a whole word is stored; signed and unsigned half-words take the same
  path, which is wrong for one of them.
* C144: `ffi_call_SYSV` of bfin loads P3 for the function from [FP+32], a word of its caller's stack,
  instead of the second word of the descriptor.

## Assumptions printed by Print Assumptions

Every theorem of the `Props*.v` files: "Closed under the global context" (no axioms).
