(** Properties C123-C130: the s390x backend, src/s390/ffi.c with src/s390/sysv.S. *)
From Verif Require Import Base ByteMem Types LayoutSpec NaturalTypes.
From Verif Require Import S390Model S390Spec S390AsmModel S390Call S390Clo S390Top S390Back S390Samples.
Local Open Scope Z_scope.

(** C123: ffi_prep_cif_machdep sets aside exactly the slots of the parameter area and the copies, and
    classifies the result as the ABI does: in memory, in %f0 (short or long), in %r2, none. *)
Theorem C123_cif :
  forall rt ts,
  rtype_ok rt -> Forall ctype ts -> room (hidden rt) ts < 2 ^ 32 ->
  exists c, machdep rt ts = Ok c /\ tc_args c = ts /\ tc_rt c = rt /\ tc_bytes c = room (hidden rt) ts /\
    in_mem (tc_flags c) = (hidden rt =? 1) /\
    Z.land (tc_flags c) 7 = match ty_code rt with T_VOID | T_STRUCT | T_LONGDOUBLE | T_COMPLEX => 4 | T_FLOAT => 1 | T_DOUBLE => 0 | _ => 2 end.
Proof. exact cif_ok. Qed.
Print Assumptions C123_cif.

(** Integers, floating point numbers, structs and a 16-byte long double, with and without a pointer to
    the result. *)
Example C123_hypotheses_met :
  map (fun i => place 1 (firstn i s_ts) (nth i s_ts ty_void)) (seq 0 8) = [LG 3; LF 0; LG 4; LG 5; LF 2; LG 6; LS 0; LS 1] /\
  map (fun i => place 0 (firstn i s_ts) (nth i s_ts ty_void)) (seq 0 8) = [LG 2; LF 0; LG 3; LG 4; LF 2; LG 5; LG 6; LS 0] /\
  room 1 s_ts = 48 /\ room 0 s_ts = 48 /\ rtype_ok ty_quad /\ Forall ctype s_ts /\ map by_ref s_ts = [false; false; true; true; false; false; false; false] /\ map floating s_ts = [false; true; false; false; true; false; false; false].
Proof. exact s_places. Qed.

(** C124: ffi_call enters the function with every argument where the ABI has it, integers extended, floats
    in the upper half of their register, large values as pointers to copies in the caller's block, the
    result pointer in %r2, the static chain in %r0; nothing outside of the block is written. *)
Theorem C124_call_entry :
  forall rt ts c rv args vs m sp hi back org e fn cl,
  setup rt ts c rv args vs m sp hi -> 0 <= org -> org + 512 <= 2 ^ 64 ->
  exists m1 frame code rvalue, call_int c rv args (sp + 160) back m = Ok (m1, frame, code, rvalue) /\
  forall X F, words_in X -> X 2 = frame -> X 3 = code -> X 4 = rvalue -> X 5 = fn -> X 6 = cl -> X 15 = sp ->
  exists X1 F1 M1, reach e text org (St X F (at_label src org 1) m1) (St X1 F1 fn M1) /\
    passed (hidden rt) ts vs X1 F1 M1 /\ refs_within (hidden rt) ts X1 F1 M1 (sp + 160) frame /\
    (hidden rt = 1 -> X1 2 = if rv =? 0 then hi - ty_size rt else rv) /\
    X1 0 = cl /\ X1 15 = sp /\ (forall r, saved_f r -> F1 r = F r) /\
    (forall x, ~ (sp <= x < hi) -> M1 x = m x).
Proof. exact call_entry. Qed.
Print Assumptions C124_call_entry.

(** Eight arguments, two of them by reference, and a result in memory, in memory that ffi_call sets
    aside, and in a register. *)
Example C124_hypotheses_met :
  setup ty_quad s_ts (cif_of ty_quad s_ts) 8192 s_args s_vs s_m s_sp (top_of ty_quad s_ts 8192) /\
  setup ty_quad s_ts (cif_of ty_quad s_ts) 0 s_args s_vs s_m s_sp (top_of ty_quad s_ts 0) /\
  setup ty_double s_ts (cif_of ty_double s_ts) 8192 s_args s_vs s_m s_sp (top_of ty_double s_ts 8192).
Proof. exact s_call. Qed.

(** The first of these, computed: registers and parameter area when the function is entered. *)
Example C124_computed :
  option_map (fun s => (spc s, map (sx s) [0; 2; 3; 4; 5; 6; 15], map (sf s) [0; 2], rd (sm s) (s_sp + 160) 48)) (s_enter ty_quad 8192 16) =
  Some (s_fn, [77; 8192; 2 ^ 64 - 56; 1048768; 1048752; 4294836482; s_sp], [4614256656552045848; 66 * 2 ^ 56 + 40 * 2 ^ 48 + 2 ^ 32],
        [255; 255; 255; 255; 128; 0; 0; 3; 0; 0; 0; 0; 0; 18; 52; 86; 17; 18; 19; 0; 0; 0; 0; 0; 0; 0; 0; 0; 0; 0; 0; 0; 1; 2; 3; 4; 5; 6; 7; 8; 9; 10; 11; 12; 13; 14; 15; 16]).
Proof. exact s_entered. Qed.

(** C125: when the function returns the result is stored, integers as 64-bit words; the preserved registers
    are restored; without a result pointer nothing is stored. *)
Theorem C125_call_result :
  forall rt ts c rv args vs m sp hi back org e fn cl ra,
  setup rt ts c rv args vs m sp hi -> 0 <= org -> org + 512 <= 2 ^ 64 ->
  (rv <> 0 -> hidden rt = 0 -> rv + 8 <= sp \/ hi <= rv /\ rv + 8 <= 2 ^ 64) ->
  exists m1 frame code rvalue, call_int c rv args (sp + 160) back m = Ok (m1, frame, code, rvalue) /\
  forall X F, words_in X -> X 2 = frame -> X 3 = code -> X 4 = rvalue -> X 5 = fn -> X 6 = cl -> X 14 = ra -> X 15 = sp ->
  exists X1 F1 M1, reach e text org (St X F (at_label src org 1) m1) (St X1 F1 fn M1) /\
    forall X2 F2 M2 v, (forall r, saved_x r -> X2 r = X1 r) -> (forall r, saved_f r -> F2 r = F1 r) ->
      (forall x, frame + 88 <= x < frame + 120 -> M2 x = M1 x) -> is_value rt v -> returned rt v X2 F2 ->
      exists X3 M3, reach e text org (St X2 F2 (X1 14) M2) (St X3 F2 ra M3) /\
        (forall r, saved_x r -> X3 r = X r) /\ (forall r, saved_f r -> F2 r = F r) /\
        (rv <> 0 -> bytes_at M3 rv (zlen (stored rt v)) = stored rt v) /\
        (forall x, ~ (rv <> 0 /\ rv <= x < rv + zlen (stored rt v)) -> M3 x = M2 x).
Proof. exact call_return. Qed.
Print Assumptions C125_call_result.

(** The calls of C124_hypotheses_met; a result of type double at 8192. *)
Example C125_hypotheses_met :
  setup ty_quad s_ts (cif_of ty_quad s_ts) 8192 s_args s_vs s_m s_sp (top_of ty_quad s_ts 8192) /\
  setup ty_quad s_ts (cif_of ty_quad s_ts) 0 s_args s_vs s_m s_sp (top_of ty_quad s_ts 0) /\
  setup ty_double s_ts (cif_of ty_double s_ts) 8192 s_args s_vs s_m s_sp (top_of ty_double s_ts 8192).
Proof. exact s_call. Qed.

(** C126: ffi_closure_SYSV (and ffi_go_closure_SYSV if [o]) calls ffi_closure_helper_SYSV with cif, function
    and data of the closure; avalue points to all argument values; the result pointer is the caller's if
    the result is in memory; nothing outside of the frame is written. *)
Theorem C126_closure_entry :
  forall (o : bool) rt ts vs c clo X F M e org,
  incoming rt ts vs c clo X F M -> X 0 = clo ->
  0 <= org -> org + 512 <= 2 ^ 64 -> 0 <= e < 2 ^ 64 ->
  exists X1 M1, reach e text org (St X F (at_label src org (if o then 4 else 5)) M) (St X1 F e M1) /\
    X1 2 = value (bytes_at M (clo + (if o then 8 else 32)) 8) /\ X1 3 = value (bytes_at M (clo + (if o then 16 else 40)) 8) /\
    X1 4 = (if o then clo else value (bytes_at M (clo + 48) 8)) /\
    (forall x, ~ (X 15 - 176 <= x < X 15 + 160) -> M1 x = M x) /\
    forall buf, exists avs, 
      closure_values c (X1 5) (X1 6) (be_dec (rd M1 (X1 15 + 160) 8)) buf M1 = Ok (if hidden rt =? 1 then X 2 else buf, avs) /\ avalues M1 ts vs avs.
Proof. exact closure_entry. Qed.
Print Assumptions C126_closure_entry.

(** The arguments above. *)
Example C126_hypotheses_met :
  incoming ty_quad s_ts s_vs (cif_of ty_quad s_ts) c_clo (rg c_xs) (rg c_fs) (put c_ms) /\ rg c_xs 0 = c_clo.
Proof. exact c_in. Qed.

(** Computed for a closure that returns short. *)
Example C126_computed :
  option_map (fun s => (spc s, map (sx s) [2; 3; 4], match closure_values (cif_of ty_sint16 s_ts) (sx s 5) (sx s 6) (be_dec (rd (sm s) (sx s 15 + 160) 8)) 444 (sm s) with
    | Ok (p, avs) => (p, map (fun q => rd (sm s) (fst q) (Z.to_nat (ty_size (snd q)))) (combine avs s_ts)) | _ => (0, []) end)) (steps s_e text s_org 18 (St (rg d_xs) (rg c_fs) (at_label src s_org 5) (put d_ms))) =
  Some (s_e, [111; 222; 999], (444, s_vs)).
Proof. exact d_values. Qed.

(** C127: what the handler leaves at rvalue is returned in the register of the ABI.  C128, what holds:
    preserved registers are intact, %r6 if the handler does not assign to its fifth integer argument. *)
Theorem C127_closure_result :
  forall (o : bool) rt ts vs c clo X F M e org,
  incoming rt ts vs c clo X F M -> X 0 = clo ->
  0 <= org -> org + 512 <= 2 ^ 64 -> 0 <= e < 2 ^ 64 ->
  exists X1 M1, reach e text org (St X F (at_label src org (if o then 4 else 5)) M) (St X1 F e M1) /\
    forall buf p avs, closure_values c (X1 5) (X1 6) (be_dec (rd M1 (X1 15 + 160) 8)) buf M1 = Ok (p, avs) ->
      forall M2 v, is_value rt v -> bytes_at M2 p (zlen (stored rt v)) = stored rt v ->
        (forall x, X 15 + 104 <= x < X 15 + 120 -> M2 x = M1 x) ->
        exists M3, closure_result rt p (X1 5) (X1 6) M2 = Ok M3 /\
          (forall x, ~ (X 15 + 16 <= x < X 15 + 24) -> ~ (X 15 + 128 <= x < X 15 + 136) -> M3 x = M2 x) /\
          forall X2 F2, (forall r, saved_x r -> X2 r = X1 r) -> (forall r, saved_f r -> F2 r = F r) ->
          exists X3 F3, reach e text org (St X2 F2 (X1 14) M3) (St X3 F3 (X 14) M3) /\ returned rt v X3 F3 /\
            (forall r, saved_x r -> r <> 6 -> X3 r = X r) /\ (forall r, saved_f r -> F3 r = F r) /\
            ((forall x, X 15 + 48 <= x < X 15 + 56 -> M2 x = M1 x) -> forall r, saved_x r -> X3 r = X r).
Proof. exact closure_return. Qed.
Print Assumptions C127_closure_result.

(** A closure that returns short; the handler leaves it widened. *)
Example C127_hypotheses_met :
  incoming ty_sint16 s_ts s_vs (cif_of ty_sint16 s_ts) c_clo (rg d_xs) (rg c_fs) (put d_ms) /\ rg d_xs 0 = c_clo /\
  is_value ty_sint16 [255; 7] /\ stored ty_sint16 [255; 7] = [255; 255; 255; 255; 255; 255; 255; 7].
Proof. exact d_in. Qed.

(** C128, what holds: all preserved registers are intact when the handler does not write to the save area
    of %r6, where its fifth integer argument is. *)
Theorem C128_saved_registers_partial :
  forall (o : bool) rt ts vs c clo X F M e org, incoming rt ts vs c clo X F M -> X 0 = clo ->
  0 <= org -> org + 512 <= 2 ^ 64 -> 0 <= e < 2 ^ 64 ->
  exists X1 M1, reach e text org (St X F (at_label src org (if o then 4 else 5)) M) (St X1 F e M1) /\
    forall buf p avs, closure_values c (X1 5) (X1 6) (be_dec (rd M1 (X1 15 + 160) 8)) buf M1 = Ok (p, avs) ->
      forall M2 v, is_value rt v -> bytes_at M2 p (zlen (stored rt v)) = stored rt v ->
        (forall x, X 15 + 104 <= x < X 15 + 120 \/ X 15 + 48 <= x < X 15 + 56 -> M2 x = M1 x) ->
        exists M3, closure_result rt p (X1 5) (X1 6) M2 = Ok M3 /\
          forall X2 F2, (forall r, saved_x r -> X2 r = X1 r) -> (forall r, saved_f r -> F2 r = F r) ->
          exists X3 F3, reach e text org (St X2 F2 (X1 14) M3) (St X3 F3 (X 14) M3) /\
            (forall r, saved_x r -> X3 r = X r) /\ (forall r, saved_f r -> F3 r = F r).
Proof. exact closure_saved. Qed.
Print Assumptions C128_saved_registers_partial.

(** The closure above. *)
Example C128_hypotheses_met :
  incoming ty_sint16 s_ts s_vs (cif_of ty_sint16 s_ts) c_clo (rg d_xs) (rg c_fs) (put d_ms) /\ rg d_xs 0 = c_clo /\
  is_value ty_sint16 [255; 7] /\ stored ty_sint16 [255; 7] = [255; 255; 255; 255; 255; 255; 255; 7].
Proof. exact d_in. Qed.

(** C128 fails: a handler that assigns to its fifth integer argument, and to nothing else, changes the
    caller's %r6. *)
Theorem C128_saved_registers_refuted :
  exists rt ts (h : Z -> list Z -> (Z -> Z) -> Z -> Z),
  (forall p avs M x, length avs = length ts -> (forall i t a, nth_error ts i = Some t -> nth_error avs i = Some a -> ~ (a <= x < a + ty_size t)) -> h p avs M x = M x) /\
  forall (o : bool) vs c clo X F M e org, incoming rt ts vs c clo X F M -> X 0 = clo -> 0 <= org -> org + 512 <= 2 ^ 64 -> 0 <= e < 2 ^ 64 -> X 6 <> 0 ->
  exists X1 M1, reach e text org (St X F (at_label src org (if o then 4 else 5)) M) (St X1 F e M1) /\
    forall buf, exists M3, closure_helper c h (X1 5) (X1 6) (be_dec (rd M1 (X1 15 + 160) 8)) buf M1 = Ok M3 /\
      forall X2 F2, (forall r, saved_x r -> X2 r = X1 r) -> (forall r, saved_f r -> F2 r = F r) ->
      exists X3 F3, reach e text org (St X2 F2 (X1 14) M3) (St X3 F3 (X 14) M3) /\ X3 6 <> X 6.
Proof. exact sixth_lost. Qed.
Print Assumptions C128_saved_registers_refuted.

(** Five words, the last one in %r6. *)
Example C128_refuted_hypotheses_met :
  incoming ty_void five f_vs (cif_of ty_void five) c_clo (rg f_xs) (rg []) (put d_ms) /\ rg f_xs 0 = c_clo /\ rg f_xs 6 <> 0.
Proof. exact f_in. Qed.

(** C129: the code ffi_prep_closure_loc writes goes to ffi_closure_SYSV with the closure in %r0 and the
    argument registers as they are.  The memory is seen at [codeloc] when executing. *)
Theorem C129_dynamic_trampoline :
  forall closure cif func data codeloc entry m m' Mx X F,
  prep_closure true closure cif func data codeloc entry m = Some m' ->
  (forall k, 0 <= k < 56 -> Mx (codeloc + k) = m' (closure + k)) ->
  0 <= codeloc -> codeloc + 56 <= 2 ^ 64 -> 0 <= entry < 2 ^ 64 -> 0 <= cif < 2 ^ 64 -> 0 <= func < 2 ^ 64 -> 0 <= data < 2 ^ 64 ->
  (exists X1, msteps 3 (St X F codeloc Mx) = Some (St X1 F entry Mx) /\ X1 0 = codeloc /\ (forall r, 2 <= r -> X1 r = X r)) /\
  be_dec (rd Mx (codeloc + 32) 8) = cif /\ be_dec (rd Mx (codeloc + 40) 8) = func /\ be_dec (rd Mx (codeloc + 48) 8) = data /\
  (forall x, ~ (closure <= x < closure + 56) -> m' x = m x).
Proof. exact dynamic_main. Qed.
Print Assumptions C129_dynamic_trampoline.

(** A closure at 589824. *)
Example C129_dynamic_hypotheses_met :
  option_map (fun m => option_map (fun s => (spc s =? at_label src s_org 5, sx s 0, sx s 2)) (msteps 3 (St (rg c_xs) (rg c_fs) c_clo m))) t_m = Some (Some (true, c_clo, 8192)).
Proof. exact t_dynamic. Qed.

(** C129: the same for slot [i] of the table of static trampolines. *)
Theorem C129_static_trampoline :
  forall i table closure cif func data entry m m' e X F,
  prep_closure_static true closure cif func data (table + 4096 + 16 * i) entry m = Some m' ->
  0 <= i < 256 -> 0 <= table -> table + 8192 <= 2 ^ 64 ->
  (closure + 56 <= table \/ table + 8192 <= closure) ->
  0 <= closure < 2 ^ 64 -> 0 <= entry < 2 ^ 64 -> 0 <= cif < 2 ^ 64 -> 0 <= func < 2 ^ 64 -> 0 <= data < 2 ^ 64 ->
  (exists X1, reach e table_text table (St X F (table + 16 * i) m') (St X1 F entry m') /\ X1 0 = closure /\ (forall r, 2 <= r -> X1 r = X r)) /\
  be_dec (rd m' (closure + 32) 8) = cif /\ be_dec (rd m' (closure + 40) 8) = func /\ be_dec (rd m' (closure + 48) 8) = data /\
  (forall x, ~ (closure + 32 <= x < closure + 56) -> ~ (table + 4096 + 16 * i <= x < table + 4096 + 16 * i + 16) -> m' x = m x).
Proof. exact static_main. Qed.
Print Assumptions C129_static_trampoline.

(** Slot 7. *)
Example C129_static_hypotheses_met :
  exists m', prep_closure_static true c_clo 111 222 999 (2097152 + 4096 + 16 * 7) (at_label src s_org 5) s_m = Some m' /\
  (c_clo + 56 <= 2097152 \/ 2097152 + 8192 <= c_clo) /\
  option_map (fun s => (spc s =? at_label src s_org 5, sx s 0, sx s 2)) (steps s_e table_text 2097152 3 (St (rg c_xs) (rg c_fs) (2097152 + 16 * 7) m')) = Some (true, c_clo, 8192).
Proof. exact t_static. Qed.

(** C129: Go closures start with the entry point, cif and function behind it. *)
Theorem C129_go_closure :
  forall closure cif func entry m m',
  prep_go true closure cif func entry m = Some m' -> 0 <= entry < 2 ^ 64 -> 0 <= cif < 2 ^ 64 -> 0 <= func < 2 ^ 64 ->
  be_dec (rd m' closure 8) = entry /\ be_dec (rd m' (closure + 8) 8) = cif /\ be_dec (rd m' (closure + 16) 8) = func /\
  (forall x, ~ (closure <= x < closure + 24) -> m' x = m x).
Proof. exact go_main. Qed.
Print Assumptions C129_go_closure.

(** A Go closure at 4096. *)
Example C129_go_hypotheses_met :
  exists m', prep_go true 4096 111 222 333 (fun _ => 0) = Some m' /\ rd m' 4096 24 = be_enc 8 333 ++ be_enc 8 111 ++ be_enc 8 222.
Proof. eexists. split; [reflexivity|vm_compute; reflexivity]. Qed.

(** C130: a closure called by ffi_call with its own signature: through the trampoline the handler gets the
    values the caller passed, and what it returns gets to the caller's memory; all preserved registers are
    restored.  Of the frames of ffi_call_SYSV and ffi_closure_SYSV the handler leaves the saved registers. *)
Theorem C130_round_trip :
  forall rt ts c rv args vs m m0 sp hi back org e cl ra clo cif func data,
  setup rt ts c rv args vs m sp hi -> 0 <= org -> org + 512 <= 2 ^ 64 -> 0 <= e < 2 ^ 64 -> bytes_in m ->
  prep_closure true clo cif func data clo (at_label src org 5) m0 = Some m ->
  0 <= clo -> clo + 56 <= 2 ^ 64 -> (clo + 56 <= sp \/ hi <= clo) -> 176 <= sp ->
  0 <= cif < 2 ^ 64 -> 0 <= func < 2 ^ 64 -> 0 <= data < 2 ^ 64 ->
  (rv <> 0 -> hidden rt = 0 -> rv + 8 <= sp \/ hi <= rv /\ rv + 8 <= 2 ^ 64) ->
  exists m1 frame code rvalue, call_int c rv args (sp + 160) back m = Ok (m1, frame, code, rvalue) /\
  forall X F, words_in X -> X 2 = frame -> X 3 = code -> X 4 = rvalue -> X 5 = clo -> X 6 = cl -> X 14 = ra -> X 15 = sp ->
  exists X1 F1 M1 X2 X3 M3,
    reach e text org (St X F (at_label src org 1) m1) (St X1 F1 clo M1) /\
    msteps 3 (St X1 F1 clo M1) = Some (St X2 F1 (at_label src org 5) M1) /\
    reach e text org (St X2 F1 (at_label src org 5) M1) (St X3 F1 e M3) /\
    X3 2 = cif /\ X3 3 = func /\ X3 4 = data /\
    forall buf, exists p avs, closure_values c (X3 5) (X3 6) (be_dec (rd M3 (X3 15 + 160) 8)) buf M3 = Ok (p, avs) /\ avalues M3 ts vs avs /\
      p = (if hidden rt =? 1 then if rv =? 0 then hi - ty_size rt else rv else buf) /\
      forall M4 v, is_value rt v -> bytes_at M4 p (zlen (stored rt v)) = stored rt v ->
        (forall x, sp + 48 <= x < sp + 56 \/ sp + 104 <= x < sp + 120 \/ frame + 88 <= x < frame + 120 -> M4 x = M3 x) ->
        exists M5, closure_result rt p (X3 5) (X3 6) M4 = Ok M5 /\
        forall X5 F5, (forall r, saved_x r -> X5 r = X3 r) -> (forall r, saved_f r -> F5 r = F1 r) ->
        exists X6 F6 X7 M7, reach e text org (St X5 F5 (X3 14) M5) (St X6 F6 (X1 14) M5) /\
          reach e text org (St X6 F6 (X1 14) M5) (St X7 F6 ra M7) /\
          (forall r, saved_x r -> X7 r = X r) /\ (forall r, saved_f r -> F6 r = F r) /\
          (rv <> 0 -> bytes_at M7 rv (zlen (stored rt v)) = stored rt v) /\
          (forall x, ~ (rv <> 0 /\ rv <= x < rv + zlen (stored rt v)) -> M7 x = M5 x).
Proof. exact trip_main. Qed.
Print Assumptions C130_round_trip.

(** The eight arguments above, result of type short. *)
Example C130_hypotheses_met :
  exists m, prep_closure true c_clo 111 222 999 c_clo (at_label src s_org 5) s_m = Some m /\ bytes_in m /\
  setup ty_sint16 s_ts (cif_of ty_sint16 s_ts) 8192 s_args s_vs m s_sp (top_of ty_sint16 s_ts 8192) /\
  (c_clo + 56 <= s_sp \/ top_of ty_sint16 s_ts 8192 <= c_clo) /\ (8192 <> 0 -> hidden ty_sint16 = 0 -> 8192 + 8 <= s_sp \/ top_of ty_sint16 s_ts 8192 <= 8192 /\ 8192 + 8 <= 2 ^ 64).
Proof. exact t_trip. Qed.
