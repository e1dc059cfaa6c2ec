(** The generator of codes for the conformance tests: go/ct/gen/code.go.
    The field codeSize (code.go:34), which only unit tests set, is not modelled. Assignments
    as in CtGen.v; opcodes are bytes. *)
From Verif Require Import Base CtSolve CtGen.

(** st/code.go:28 *)
Definition MaxCodeSize : Z := 24576.

(** code.go:26-35: positions or variables, with the opcodes *)
Record CodeGenerator := mkCodeGen { constOps : list (Z * Z); varOps : list (Z * Z); varIsCode : list Z; varIsData : list Z }.
(** code.go:55-57, 60-62, 65-67, 71-73, 77-79 *)
Definition NewCodeGenerator : CodeGenerator := mkCodeGen [] [] [] [].
Definition SetOperation (pos op : Z) (g : CodeGenerator) : CodeGenerator := mkCodeGen (constOps g ++ [(pos, op)]) (varOps g) (varIsCode g) (varIsData g).
Definition AddOperation (v op : Z) (g : CodeGenerator) : CodeGenerator := mkCodeGen (constOps g) (varOps g ++ [(v, op)]) (varIsCode g) (varIsData g).
Definition AddIsCode (v : Z) (g : CodeGenerator) : CodeGenerator := mkCodeGen (constOps g) (varOps g) (varIsCode g ++ [v]) (varIsData g).
Definition AddIsData (v : Z) (g : CodeGenerator) : CodeGenerator := mkCodeGen (constOps g) (varOps g) (varIsCode g) (varIsData g ++ [v]).

(** tosca/vm/opcodes.go:171-177 OpCode.Width *)
Definition is_push (op : Z) : bool := (0x60 <=? op) && (op <=? 0x7F).
Definition Width (op : Z) : Z := if is_push op then op - 0x60 + 2 else 1.
(** tosca/vm/opcodes.go:180-192 ValidOpCodesNoPush, with the table of 507-663 *)
Definition op_range (from : Z) (n : nat) : list Z := map (fun i => from + Z.of_nat i) (seq 0 n).
Definition ValidOpCodesNoPush : list Z :=
  op_range 0x00 12 ++ op_range 0x10 14 ++ [0x20] ++ op_range 0x30 27 ++ op_range 0x50 15 ++ op_range 0x80 32 ++ op_range 0xA0 5 ++ op_range 0xF0 6 ++ [0xFA; 0xFD; 0xFF].

(** code.go:89-100: the operations at constant positions and the remaining ones *)
Fixpoint bind_ops (a : Assignment) (l ops vars : list (Z * Z)) : option (list (Z * Z) * list (Z * Z)) :=
  match l with
  | [] => Some (ops, vars)
  | (x, op) :: l' =>
    match a x with
    | Some value => if (2 ^ 64 <=? value) || (value >? MaxCodeSize) then None else bind_ops a l' (ops ++ [(value, op)]) vars
    | None => bind_ops a l' ops (vars ++ [(x, op)])
    end
  end.

(** code.go:118-124: the number of keys of the map opCount *)
Fixpoint distinct (l : list Z) : list Z :=
  match l with [] => [] | x :: l' => if existsb (Z.eqb x) l' then distinct l' else x :: distinct l' end.
(** code.go:103-137; Go ints wrap around *)
Definition min_size (ops vars : list (Z * Z)) (isCodes isDatas : list Z) : Z :=
  let m := fold_left (fun m c => if fst c >? m then conv tInt (fst c + 1) else m) ops 0 in
  let m := fold_left (fun m c => conv tInt (m + (if is_push (snd c) then 1 + (snd c - 0x60 + 1) else 1))) vars m in
  let m := Z.max m (zlen (distinct (map snd vars ++ map snd ops))) in
  let m := if (m =? 0) && (zlen isCodes >? 0) then 1 else m in
  if (zlen isDatas >? 0) && (m <? 2) then 2 else m.
(** code.go:146-152; [e] is the value of [int(rnd.ExpFloat64()/(1/expectedSize))] *)
Definition code_size (e min : Z) : Z := let size := conv tInt (e + min) in if size >? MaxCodeSize then MaxCodeSize else size.

(** code.go:280-286 Used; the map usedPositions as a function *)
Inductive Used := isUnused | isCode | isData.
(** code.go:327-332 (positions that exceed the largest int are never looked up) *)
Definition markUsed (pos op : Z) (u : Z -> Used) : Z -> Used :=
  fun q => if (pos <? q) && (q <=? pos + (Width op - 1)) then isData else if q =? pos then isCode else u q.
Definition unused (u : Z -> Used) (q : Z) : bool := match u q with isUnused => true | _ => false end.
Definition used_code (u : Z -> Used) (q : Z) : bool := match u q with isCode => true | _ => false end.
Definition used_data (u : Z -> Used) (q : Z) : bool := match u q with isData => true | _ => false end.
(** code.go:335-345 *)
Definition fits (size : Z) (u : Z -> Used) (pos op : Z) : bool :=
  if Width op >? size - pos then false else forallb (fun i => unused u (pos + Z.of_nat i)) (seq 0 (Z.to_nat (Width op))).
(** code.go:349-357; [k] is the number of iterations left *)
Fixpoint largest_fit (k : nat) (size : Z) (u : Z -> Used) (pos : Z) : Z :=
  match k with
  | O => 0
  | S k' => if (pos <? size) && unused u pos then 1 + largest_fit k' size u (pos + 1) else 0
  end.
Definition largestFit (size : Z) (u : Z -> Used) (pos : Z) : Z := largest_fit 33 size u pos.

(** The solver, code.go:268-274: operations, assignment, used positions, and the number of
    random draws so far. *)
Record solver := mkSolver { v_ops : list (Z * Z); v_asg : Assignment; v_used : Z -> Used; v_drawn : nat }.
(** code.go:290-302 *)
Definition new_solver (ops : list (Z * Z)) (a : Assignment) : solver :=
  mkSolver ops a (fold_left (fun u c => markUsed (fst c) (snd c) u) ops (fun _ => isUnused)) 0.

Section Random.
(** The random numbers drawn by the solver, in order; Intn(k) is the remainder modulo k. *)
Variable rnd : nat -> Z.
(** The random byte for each position of the code (random opcodes and data). *)
Variable fill : Z -> Z.
Variable size : Z.

Definition draw_below (n : Z) (s : solver) : outcome (Z * solver) :=
  if n <=? 0 then Panics else Generated (rnd (v_drawn s) mod n, mkSolver (v_ops s) (v_asg s) (v_used s) (S (v_drawn s))).
(** The search loops of code.go:408-420, 451-460 and 494-516: from [pos] on, with wrap-around,
    up to [start]; [k] bounds the number of iterations. *)
Fixpoint search (good : Z -> bool) (k : nat) (pos start : Z) : outcome Z :=
  match k with
  | O => Running
  | S k' =>
    if good pos then Generated pos
    else let pos1 := if pos + 1 >=? size then 0 else pos + 1 in
      if pos1 =? start then ErrUnsatisfiable else search good k' pos1 start
  end.
Definition find_position (good : Z -> bool) (s : solver) : outcome (Z * solver) :=
  gen! ' (start, s1) <- draw_below size s; gen! pos <- search good (Z.to_nat size) start start; Generated (pos, s1).
(** code.go:424-425, 466-467, 520-521 *)
Definition place (pos op : Z) (s : solver) : solver := mkSolver (v_ops s ++ [(pos, op)]) (v_asg s) (markUsed pos op (v_used s)) (v_drawn s).
(** code.go:359-363; NewU256(uint64(pos)) *)
Definition assign (v pos : Z) (s : solver) : solver := mkSolver (v_ops s) (put (v_asg s) v pos) (v_used s) (v_drawn s).

(** code.go:395-430; [bound] is the map boundVariables *)
Fixpoint solveVarOps (l : list (Z * Z)) (bound : Z -> option Z) (s : solver) : outcome solver :=
  match l with
  | [] => Generated s
  | (v, op) :: l' =>
    match bound v with
    | Some op' => if op' =? op then solveVarOps l' bound s else ErrUnsatisfiable
    | None =>
      gen! ' (pos, s1) <- find_position (fun p => fits size (v_used s) p op) s;
      solveVarOps l' (put bound v op) (assign v pos (place pos op s1))
    end
  end.

(** code.go:432-473 *)
Fixpoint solveIsCode (l : list Z) (s : solver) : outcome solver :=
  match l with
  | [] => Generated s
  | v :: l' =>
    match match v_asg s v with Some pos => if size <=? pos then Some false else if used_code (v_used s) pos then Some true else None | None => None end with
    | Some false => ErrUnsatisfiable
    | Some true => solveIsCode l' s
    | None =>
      gen! ' (pos, s1) <- find_position (fun p => negb (used_data (v_used s) p)) s;
      gen! s2 <- (if unused (v_used s1) pos then
                    gen! ' (i, s2) <- draw_below (zlen ValidOpCodesNoPush) s1; Generated (place pos (nth (Z.to_nat i) ValidOpCodesNoPush 0) s2)
                  else Generated s1);
      solveIsCode l' (assign v pos s2)
    end
  end.

(** code.go:475-524 *)
Fixpoint solveIsData (l : list Z) (s : solver) : outcome solver :=
  match l with
  | [] => Generated s
  | v :: l' =>
    if match v_asg s v with Some pos => (pos <? size) && used_code (v_used s) pos | None => false end then ErrUnsatisfiable
    else
      gen! ' (pos, s1) <- find_position (fun p => used_data (v_used s) p || (unused (v_used s) p && (largestFit size (v_used s) p >=? 2))) s;
      if unused (v_used s1) pos then
        gen! ' (i, s2) <- draw_below (largestFit size (v_used s1) pos - 1) s1;
        let op := 0x60 + i in
        gen! ' (j, s3) <- draw_below (op - 0x60 + 1) (place pos op s2);
        solveIsData l' (assign v (pos + 1 + j) s3)
      else solveIsData l' (assign v pos s1)
  end.

(** code.go:306-325 *)
Definition solve (ops vars : list (Z * Z)) (isCodes isDatas : list Z) (a : Assignment) : outcome (list (Z * Z) * Assignment) :=
  gen! s1 <- solveVarOps vars (fun _ => None) (new_solver ops a);
  gen! s2 <- solveIsCode isCodes s1;
  gen! s3 <- solveIsData isDatas s2;
  Generated (v_ops s3, v_asg s3).

(** rnd.Read into code[i : i+n] *)
Definition random_bytes (i : Z) (n : Z) : list Z := map (fun k => fill (i + Z.of_nat k) mod 256) (seq 0 (Z.to_nat n)).
(** code.go:198-206: the random opcode for position [i] in front of the next fixed one *)
Definition random_op (i next : Z) : Z :=
  let limit := if next - i - 1 <? 32 then 0x60 + (next - i - 1) - 1 else 0x7F in
  let op := fill i mod 256 in
  if (limit <? op) && (op <=? 0x7F) then limit else op.
(** code.go:183-240: the bytes from position [i] on; [k] bounds the number of iterations *)
Fixpoint build (k : nat) (i : Z) (ops : list (Z * Z)) : outcome (list Z) :=
  match k with
  | O => Running
  | S k' =>
    match ops with
    | [] => Panics
    | (next, fixed) :: ops' =>
      if i >=? size then ErrUnsatisfiable
      else if next <? i then ErrUnsatisfiable
      else
        let '(op, rest) := if i =? next then (fixed, ops') else (random_op i next, ops) in
        match rest with
        | [] => Generated (op :: random_bytes (i + 1) (size - (i + 1)))
        | _ =>
          if is_push op then
            let width := op - 0x60 + 1 in
            gen! l <- build k' (i + 1 + width) rest;
            Generated (op :: random_bytes (i + 1) (Z.min (i + 1 + width) size - (i + 1)) ++ l)
          else gen! l <- build k' (i + 1) rest; Generated (op :: l)
        end
    end
  end.
(** When the loop ends behind the code nothing is left to write. *)
End Random.

(** code.go:84-242. sort.Slice is not stable; operations with equal positions are rejected
    in any order. A negative size (after an overflow) makes Int31n or make panic; that the
    solver may find a conflict before that is not modelled. *)
Definition CodeGenerate (rnd : nat -> Z) (fill : Z -> Z) (e : Z) (a : Assignment) (g : CodeGenerator) : outcome (list Z * Assignment) :=
  match bind_ops a (varOps g) (constOps g) [] with
  | None => ErrUnsatisfiable
  | Some (ops, vars) =>
    let size := code_size e (min_size ops vars (varIsCode g) (varIsData g)) in
    if size <? 0 then Panics
    else gen! ' (ops, b) <- (if negb (zlen vars + zlen (varIsCode g) + zlen (varIsData g) =? 0) then solve rnd size ops vars (varIsCode g) (varIsData g) a
                        else Generated (ops, a));
    match ops with
      | [] => Generated (random_bytes fill 0 size, b)
      | _ =>
        let sorted := sort (fun x y => fst x <? fst y) ops in
        if fst (last sorted (0, 0)) >=? size then ErrUnsatisfiable
        else gen! code <- build fill size (S (Z.to_nat size)) 0 sorted; Generated (code, b)
    end
  end.
