(** Caches: from the representation facts to the statements of C20 - C24. *)
From Verif Require Import Base Host Lru LruFacts Sha3 MemoFacts SpecEvm SpecVm Vm VmFacts Client ClientFacts RefFacts SpecTop SpecCache MemFacts LruConc LruConcFacts.
From Coq Require Import Lia ZArith List Bool.
Import ListNotations.

Lemma hash_history keccak keys : exists c, hash_run keccak keys sha3_new = Ok (map keccak keys, c).
Proof.
  assert (X : forall c, sha3_ok keccak c -> exists c', hash_run keccak keys c = Ok (map keccak keys, c')).
  { induction keys as [|k ks IH]; intros c Hc; cbn [hash_run map]; [eauto|].
    destruct (sha3_hash_ok keccak c k Hc) as (c1 & -> & H1). cbn [rbind]. destruct (IH c1 H1) as (c2 & ->). eexists. reflexivity. }
  apply X, sha3_new_ok.
Qed.
(** a zero or absent hash, or a disabled cache: nothing is looked up or stored *)
Lemma info_uncached code hash v : hash = None \/ hash = Some 0 \/ v_analysis v = false ->
  contract_info code hash v = (do! i <- compute_contract_info code; Ok (i, v)).
Proof.
  unfold contract_info. intros [-> | [-> | ->]]; [destruct (v_analysis v); reflexivity | destruct (v_analysis v); reflexivity | reflexivity].
Qed.
Section Reach.
Context {W : Type}.
Variable g : setting W.
Hypothesis Hg : setting_ok g.
Lemma info_cached v code m : reach g v -> exec_ok (g_code_of g) code m ->
  exists i v', contract_info code (msg_code_hash m) v = Ok (i, v') /\ compute_contract_info code = Ok i.
Proof.
  intros R E. pose proof (reach_ok g Hg v R) as V.
  destruct (contract_info_ok _ _ code (msg_code_hash m) v V (eok_code_len _ _ _ E) (eok_hash _ _ _ E)) as (i & c & A & B & _).
  eauto.
Qed.
(** any two VMs, whatever their options and histories, agree *)
Lemma same_everywhere v1 v2 w rv code m : reach g v1 -> reach g v2 -> exec_ok (g_code_of g) code m ->
  exists r w' v1' v2', Execute g v1 w rv code m = Ok (r, w', v1') /\ Execute g v2 w rv code m = Ok (r, w', v2').
Proof.
  intros R1 R2 E. destruct (execute_evm g Hg _ v1 w rv code m (reference_evm g Hg) R1 E) as (a & A & _).
  destruct (execute_evm g Hg _ v2 w rv code m (reference_evm g Hg) R2 E) as (b & B & _). eauto 6.
Qed.
End Reach.
Lemma atomic {K V} (keqb : K -> K -> bool) : (forall a b, keqb a b = true <-> a = b) ->
  forall (dk : K) (dv : V) cap, 2 <= cap -> forall (makes : K -> V -> Prop) ops es c,
  cexec keqb dk dv cap makes (c_init dk dv cap ops) es c -> exists a, aexec keqb cap makes (a_init ops) es a.
Proof.
  intros e dk dv cap c2 makes ops es c X. destruct (exec_sim keqb e dk dv cap c2 makes ops es c X) as (a & A & _). eauto.
Qed.
(** a VM with a small analysis cache, for computed examples *)
Definition vm_small (n : Z) : vm :=
  mkVm false true true false false (clear 0 (mkCInfo [] []) n) Sha3.sha3_new [] Profiler.profiler_new Profiler.profiler_new 0 0.
(** ** Playing a schedule, to exhibit executions of the concurrent cache *)
Section Schedule.
Context {K V : Type}.
Variable keqb : K -> K -> bool.
Variables (dk : K) (dv : V) (cap : Z) (f : K -> V).
Notation makes := (fun k v => v = f k).
(** the next step of thread [t] *)
Definition sched_step (t : nat) (c : cstate (K:=K) (V:=V)) : option (option event * cstate (K:=K) (V:=V)) :=
  match g_threads c t with
  | mkThread Idle (o :: rest) => Some (Some (Call t o), mkC (g_lock c) (g_cache c) (upd (g_threads c) t (mkThread (Waiting o (first_section o)) rest)))
  | mkThread Idle [] => None
  | mkThread (Waiting o s) rest =>
      match g_lock c with None => Some (None, mkC (Some t) (g_cache c) (upd (g_threads c) t (mkThread (Inside o s) rest))) | Some _ => None end
  | mkThread (Inside o s) rest =>
      match body keqb dk dv cap s (g_cache c) with
      | Ok (r, c') => Some (None, mkC (g_lock c) c' (upd (g_threads c) t (mkThread (Leaving o s r) rest)))
      | _ => None
      end
  | mkThread (Leaving o s r) rest =>
      match g_lock c with
      | Some u => if Nat.eqb u t then Some (None, mkC None (g_cache c) (upd (g_threads c) t (mkThread (after o s r) rest))) else None
      | None => None
      end
  | mkThread (Making k) rest => Some (None, mkC (g_lock c) (g_cache c) (upd (g_threads c) t (mkThread (Waiting (OGoi k) (SPut k (f k))) rest)))
  | mkThread (Returning o r) rest => Some (Some (Return t o r), mkC (g_lock c) (g_cache c) (upd (g_threads c) t (mkThread Idle rest)))
  end.
Fixpoint sched (ts : list nat) (c : cstate (K:=K) (V:=V)) (es : list event) : option (list event * cstate (K:=K) (V:=V)) :=
  match ts with
  | [] => Some (es, c)
  | t :: ts => match sched_step t c with
               | Some (e, c') => sched ts c' (match e with Some e => es ++ [e] | None => es end)
               | None => None
               end
  end.
Lemma sched_step_ok t c e c' : sched_step t c = Some (e, c') -> cstep keqb dk dv cap makes c e c'.
Proof.
  destruct c as [l ca ts]. unfold sched_step. cbn [g_threads g_cache g_lock]. destruct (ts t) as [p rest] eqn:E. destruct p as [|o s|o s|o s r|k|o r].
  - destruct rest as [|o rest]; [discriminate|]. intro X. injection X as <- <-. constructor. exact E.
  - destruct l; [discriminate|]. intro X. injection X as <- <-. constructor. exact E.
  - destruct (body keqb dk dv cap s ca) as [[r c1]| |] eqn:B; try discriminate. intro X. injection X as <- <-. econstructor; eassumption.
  - destruct l as [u|]; [|discriminate]. destruct (Nat.eqb u t) eqn:Q; [|discriminate]. apply PeanoNat.Nat.eqb_eq in Q as ->.
    intro X. injection X as <- <-. constructor. exact E.
  - intro X. injection X as <- <-. econstructor; [exact E | reflexivity].
  - intro X. injection X as <- <-. constructor. exact E.
Qed.
Lemma sched_ok ts : forall c0 c es es' c', cexec keqb dk dv cap makes c0 es c -> sched ts c es = Some (es', c') ->
  cexec keqb dk dv cap makes c0 es' c'.
Proof.
  induction ts as [|t ts IH]; intros c0 c es es' c' X; cbn [sched]; [intro Y; injection Y as <- <-; exact X|].
  destruct (sched_step t c) as [[e c1]|] eqn:S; [|discriminate]. apply sched_step_ok in S. apply IH.
  destruct e; econstructor; eassumption.
Qed.
Lemma sched_shows ts c0 ev (q : cstate (K:=K) (V:=V) -> bool) :
  match sched ts c0 [] with Some (es, c) => es = ev /\ q c = true | None => False end -> exists c, cexec keqb dk dv cap makes c0 ev c /\ q c = true.
Proof.
  destruct (sched ts c0 []) as [[es c]|] eqn:E; [|contradiction]. intros [<- Hq]. exists c. split; [|exact Hq].
  exact (sched_ok ts c0 c0 [] es c (cx_refl _ _ _ _ _ _) E).
Qed.
End Schedule.
