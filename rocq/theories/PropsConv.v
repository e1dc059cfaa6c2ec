(** C76: the cache of converted codes of LFVM. *)
From Coq Require Import Lia ZArith List Bool.
From Verif Require Import Base Host SpecEvm SpecVm GoAdapter LfvmCode Lfvm SpecLfvm LfvmCache LfvmCacheFacts LfvmToy Ledger.
Import ListNotations.
Open Scope Z_scope.

(** every Convert, of any thread at any time, returns the conversion of its code; long codes are not kept *)
Theorem C76_convert : forall L, lib_ok L -> forall super cacheSize es s, cexec L super cacheSize es s -> honest es ->
  (forall t code h lc, In (CReturn t code h lc) es -> convert super code = Ok lc) /\
  forall st k v, cs_cache s = Some st -> In (k, v) (contents L st) -> zlen v <= 24576.
Proof. exact convert_cached. Qed.
(** so that Run of an interpreter that is in use gives the EVM's result (with super instructions under the condition of C77) *)
Theorem C76_run : forall L, lib_ok L -> forall super cacheSize es s t h lc, cexec L super cacheSize es s -> honest es ->
  forall W (rc : run_context W) tx Call keccak p rv w, In (CReturn t (p_code p) h lc) es ->
  env_ok rc tx Call keccak (p_depth p) -> run_ok p -> In (p_revision p, rv) revisions ->
  (super = true -> returns_in_range (go_host rc tx) keccak (answers Call) w rv (p_code p) (message_of p)) ->
  let e := evaluate (go_host rc tx) keccak (answers Call) w rv (p_code p) (message_of p) in
  exists w', lrun rc tx Call keccak p lc w = Ok (expected (fst e), w') /\ (unfailed (fst e) -> w' = snd e).
Proof. exact cached_run. Qed.
(** no thread gets stuck *)
Theorem C76_progress : forall L, lib_ok L -> forall super cacheSize es s, cexec L super cacheSize es s ->
  (forall t code h, In (CCall t code h) es -> Forall is_byte code /\ zlen code <= 65536) ->
  forall t, cs_threads s t <> CIdle -> exists e s', cstep L super s e s' /\ cs_threads s' t <> cs_threads s t.
Proof. exact convert_moves. Qed.
(** which cache sizes are accepted *)
Theorem C76_new : forall L, lib_ok L -> forall cacheSize,
  (cacheSize < 0 -> NewConverter L cacheSize = Some None) /\
  (0 < cacheSize < 98304 -> NewConverter L cacheSize = None) /\
  (cacheSize = 0 \/ 98304 <= cacheSize -> exists s, NewConverter L cacheSize = Some (Some s)).
Proof. exact new_converter. Qed.

Definition c76_code : list Z := [0x60; 1; 0x5B; 0].
Definition c76_lc : lcode := [(0x60, 256); (L_JUMP_TO, 2); (0x5B, 0); (0, 0)].
(** two threads convert the same code for the first time, the second looks it up before the first has added it; then it is found *)
Example C76_case : lib_ok small_lib /\ exists s, cexec small_lib false 98304
  [CCall 0 c76_code (Some [7]); CCall 1 c76_code (Some [7]); CReturn 0 c76_code (Some [7]) c76_lc; CReturn 1 c76_code (Some [7]) c76_lc;
   CCall 0 c76_code (Some [7]); CReturn 0 c76_code (Some [7]) c76_lc] s.
Proof.
  split; [exact small_lib_ok|]. eexists.
  eapply (cx_event _ _ _ [_; _; _; _; _]); [eapply (cx_event _ _ _ [_; _; _; _]); [eapply (cx_event _ _ _ [_; _; _]); [eapply (cx_event _ _ _ [_; _]); [eapply cx_tau; [eapply cx_tau; [eapply (cx_event _ _ _ [_]); [eapply (cx_event _ _ _ []); [apply cx_new; reflexivity|]|]|]|]|]|]|]|].
  - apply cs_call. reflexivity.
  - apply cs_call. reflexivity.
  - eapply (cs_miss _ _ _ _ 0%nat); [reflexivity|vm_compute; reflexivity].
  - eapply (cs_miss _ _ _ _ 1%nat); [reflexivity|vm_compute; reflexivity].
  - apply cs_add; [reflexivity|vm_compute; reflexivity|apply Z.leb_le; vm_compute; reflexivity].
  - apply cs_add; [reflexivity|vm_compute; reflexivity|apply Z.leb_le; vm_compute; reflexivity].
  - apply cs_call. reflexivity.
  - eapply cs_hit; [reflexivity|vm_compute; reflexivity].
Qed.
(** without honest hashes another code is run *)
Theorem C76_dishonest_refuted : exists es s, cexec small_lib false 98304 es s /\ In (CReturn 0%nat [0x60; 2; 0x50] (Some [7]) c76_lc) es /\ convert false [0x60; 2; 0x50] <> Ok c76_lc.
Proof.
  exists ([CCall 0%nat c76_code (Some [7])] ++ [CReturn 0%nat c76_code (Some [7]) c76_lc] ++ [CCall 0%nat [0x60; 2; 0x50] (Some [7])] ++ [CReturn 0%nat [0x60; 2; 0x50] (Some [7]) c76_lc]).
  eexists. split; [|split; [right; right; right; left; reflexivity|vm_compute; discriminate]].
  eapply (cx_event _ _ _ [_; _; _]); [eapply (cx_event _ _ _ [_; _]); [eapply (cx_event _ _ _ [_]); [eapply cx_tau; [eapply (cx_event _ _ _ []); [apply cx_new; reflexivity|]|]|]|]|].
  - apply cs_call. reflexivity.
  - eapply (cs_miss _ _ _ _ 0%nat); [reflexivity|vm_compute; reflexivity].
  - apply cs_add; [reflexivity|vm_compute; reflexivity|apply Z.leb_le; vm_compute; reflexivity].
  - apply cs_call. reflexivity.
  - eapply cs_hit; [reflexivity|vm_compute; reflexivity].
Qed.
Print Assumptions C76_convert.
Print Assumptions C76_run.
Print Assumptions C76_progress.
Print Assumptions C76_new.
Print Assumptions C76_dishonest_refuted.
