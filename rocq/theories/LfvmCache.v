(** Models the Converter of go/interpreter/lfvm/converter.go: conversion with a cache of converted codes.  Line numbers refer to
    that file.  The cache itself is hashicorp/golang-lru (not part of the repository): any object that returns on Get only what was
    added under the same key (a thread-safe map that may drop entries at any time). *)
From Verif Require Import Base LfvmCode.
From Coq Require Import ZArith List Bool.
Import ListNotations.
Open Scope Z_scope.

(** lru.Cache[tosca.Hash, Code]: its states, New, Get, Add; [contents] are the entries of a state *)
Record lib_cache : Type := mkLib {
  lib_state : Type;
  lib_new : Z -> option lib_state;                                            (* an error for capacities below 1 *)
  lib_get : list Z -> lib_state -> option lcode * lib_state;
  lib_add : list Z -> lcode -> lib_state -> lib_state;
  contents : lib_state -> list (list Z * lcode)
}.
(** what is assumed of it *)
Record lib_ok (L : lib_cache) : Prop := mkLibOk {
  lib_new_ok : forall n, match lib_new L n with Some s => 1 <= n /\ contents L s = [] | None => n < 1 end;
  lib_get_ok : forall k s, incl (contents L (snd (lib_get L k s))) (contents L s) /\ forall v, fst (lib_get L k s) = Some v -> In (k, v) (contents L s);
  lib_add_ok : forall k v s, incl (contents L (lib_add L k v s)) ((k, v) :: contents L s)
}.

(** 99: maxCachedCodeLength *)
Definition maxCachedCodeLength : Z := 24576.
(** 55: unsafe.Sizeof(Instruction{}), two uint16 (instruction.go:19-24) *)
Definition instructionSize : Z := 4.
(** 47-66 NewConverter; [Some None]: no cache, [None]: an error *)
Definition NewConverter (L : lib_cache) (cacheSize : Z) : option (option (lib_state L)) :=
  let cacheSize := if cacheSize =? 0 then 2 ^ 30 else cacheSize in
  if 0 <? cacheSize
  then match lib_new L (Z.quot (Z.quot cacheSize maxCachedCodeLength) instructionSize) with Some s => Some (Some s) | None => None end
  else Some None.

(** ** 71-89 Convert, called by any number of threads that share the converter.  Get and Add are atomic; the conversion happens between
    them.  A converter without a cache (72) has the state [None]. *)
Section Convert.
Variable L : lib_cache.
Variable super : bool.
Inductive cphase : Type :=
| CIdle
| CGet (code : list Z) (h : list Z)          (* before line 76 *)
| CAdd (code : list Z) (h : list Z)          (* before line 81 *)
| CPure (code : list Z) (h : option (list Z)) (* before line 73 *).
Record cstate : Type := mkC { cs_cache : option (lib_state L); cs_threads : nat -> cphase }.
Definition cupd (ts : nat -> cphase) (t : nat) (x : cphase) : nat -> cphase := fun u => if Nat.eqb u t then x else ts u.
(** calls and returns of Convert *)
Inductive cevent : Type :=
| CCall (t : nat) (code : list Z) (h : option (list Z))
| CReturn (t : nat) (code : list Z) (h : option (list Z)) (res : lcode).
Inductive cstep : cstate -> option cevent -> cstate -> Prop :=
| cs_call c ts t code h : ts t = CIdle ->
    cstep (mkC c ts) (Some (CCall t code h)) (mkC c (cupd ts t (match c, h with Some _, Some h => CGet code h | _, _ => CPure code h end)))
| cs_pure c ts t code h lc : ts t = CPure code h -> convert super code = Ok lc ->
    cstep (mkC c ts) (Some (CReturn t code h lc)) (mkC c (cupd ts t CIdle))
| cs_hit s ts t code h lc s' : ts t = CGet code h -> lib_get L h s = (Some lc, s') ->
    cstep (mkC (Some s) ts) (Some (CReturn t code (Some h) lc)) (mkC (Some s') (cupd ts t CIdle))
| cs_miss s ts t code h s' : ts t = CGet code h -> lib_get L h s = (None, s') ->
    cstep (mkC (Some s) ts) None (mkC (Some s') (cupd ts t (CAdd code h)))
| cs_long c ts t code h lc : ts t = CAdd code h -> convert super code = Ok lc -> maxCachedCodeLength < zlen lc ->
    cstep (mkC c ts) (Some (CReturn t code (Some h) lc)) (mkC c (cupd ts t CIdle))
| cs_add s ts t code h lc : ts t = CAdd code h -> convert super code = Ok lc -> zlen lc <= maxCachedCodeLength ->
    cstep (mkC (Some s) ts) (Some (CReturn t code (Some h) lc)) (mkC (Some (lib_add L h lc s)) (cupd ts t CIdle)).
(** executions from a new converter *)
Inductive cexec (cacheSize : Z) : list cevent -> cstate -> Prop :=
| cx_new c : NewConverter L cacheSize = Some c -> cexec cacheSize [] (mkC c (fun _ => CIdle))
| cx_tau es x y : cexec cacheSize es x -> cstep x None y -> cexec cacheSize es y
| cx_event es x e y : cexec cacheSize es x -> cstep x (Some e) y -> cexec cacheSize (es ++ [e]) y.
End Convert.
Arguments mkC {L}. Arguments cs_cache {L}. Arguments cs_threads {L}.

(** codes that are passed with the same hash are the same *)
Definition honest (es : list cevent) : Prop :=
  forall t1 c1 t2 c2 h, In (CCall t1 c1 (Some h)) es -> In (CCall t2 c2 (Some h)) es -> c1 = c2.
