(** go/tosca/utils.go: the storage status that hosts report for SSTORE. *)
From Verif Require Import Base Host.

(** go/tosca/utils.go:18-68 GetStorageStatus; tests in source order *)
Definition GetStorageStatus (original current new : Z) : storage_status :=
  if current =? new then S_ASSIGNED
  else if (original =? 0) && (current =? 0) && negb (new =? 0) then S_ADDED
  else if negb (original =? 0) && (current =? original) && (new =? 0) then S_DELETED
  else if negb (original =? 0) && (current =? original) && negb (new =? 0) && negb (new =? original) then S_MODIFIED
  else if negb (original =? 0) && (current =? 0) && negb (new =? original) && negb (new =? 0) then S_DELETED_ADDED
  else if negb (original =? 0) && negb (current =? original) && negb (current =? 0) && (new =? 0) then S_MODIFIED_DELETED
  else if negb (original =? 0) && (current =? 0) && (new =? original) then S_DELETED_RESTORED
  else if (original =? 0) && negb (current =? 0) && (new =? 0) then S_ADDED_DELETED
  else if negb (original =? 0) && negb (current =? original) && negb (current =? 0) && (new =? original) then S_MODIFIED_RESTORED
  else S_ASSIGNED.

(** go/tosca/utils.go:72-78 SizeInWords on uint64 *)
Definition SizeInWords (size : Z) : Z :=
  if 2 ^ 64 - 1 - 31 <? size then (2 ^ 64 - 1) / 32 + 1 else (size + 31) / 32.
