(** The numbers that clients made on an instance of a host use:
    /repo/transport/wasmrs/host/caller.go 15-29. *)
From Verif Require Import Base InvokeModel.

(** [Instance.ImportRequestResponse] and the like, transport/wasmrs/host/caller.go 15-29: the number comes
    from the registry of the host process, [own] is what this process registered
    before; the guest is not asked. *)
Definition instance_import (own : list reg_call) (k : kind) (i : info) : N := fst (do_import k i (reg_run own)).
