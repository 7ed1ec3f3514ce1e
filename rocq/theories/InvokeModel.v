(** Models of the operation table (/repo/operations/operatons.go), the handler
    registry (/repo/invoke/handlers.go), the peer's lookups
    (/repo/handler/caller.go 18-64), live instances (/repo/invoke/instances.go)
    and port messages (/repo/invoke/portio.go). *)
From Verif Require Import Base FramesModel.

(** ** operations/operatons.go *)
(** operations/operatons.go 10-16; [RequestType] and [Direction] are uint8, strings are bytes. *)
Record oper := { o_index : N; o_type : N; o_dir : N; o_ns : bytes; o_name : bytes }.
(** operations/operatons.go 22-27, 46-49 *)
Definition OpRequestResponse := 1.
(** operations/operatons.go 22-27 *)
Definition OpFireAndForget := 2.
(** operations/operatons.go 22-27 *)
Definition OpRequestStream := 3.
(** operations/operatons.go 22-27 *)
Definition OpRequestChannel := 4.
(** operations/operatons.go 46-49 *)
Definition DirExport := 1.
(** operations/operatons.go 46-49 *)
Definition DirImport := 2.
(** operations/operatons.go 63 *)
Definition Magic : bytes := [0; 119; 114; 115].

(** [ToBytes], 107-150.  The size is computed in uint32; the buffer of that
    size starts as zeros and is filled from left to right; lengths are written
    as uint16, while the strings are copied completely and then partly
    overwritten when longer (131-135, 138-142).  operations/operatons.go 108-111 *)
Definition table_size (t : list oper) : N :=
  fold_left (fun s o => u32 (s + u32 (12 + len (o_ns o) + len (o_name o)))) t 10.
(** operations/operatons.go 122-147 *)
Fixpoint write_ops (t : list oper) : bytes -> res bytes :=
  match t with
  | [] => fun b => Ok b
  | o :: t' =>
      let nsLen := u16 (len (o_ns o)) in
      let operLen := u16 (len (o_name o)) in
      put [u8 (o_type o); u8 (o_dir o)]
     (put (be 4 (o_index o))
     (put (be 2 nsLen) (copy_adv (o_ns o) nsLen
     (put (be 2 operLen) (copy_adv (o_name o) operLen
     (put (be 2 0)
     (write_ops t')))))))
  end.
(** operations/operatons.go 107-150 *)
Definition table_to_bytes (t : list oper) : res bytes :=
  put Magic (put (be 2 1) (put (be 4 (u32 (len t))) (write_ops t))) (zeros (table_size t)).

(** [FromBytes], 66-105.  Slices are taken to have no spare capacity (with
    spare capacity an input below 4 bytes may be rejected instead of panicking),
    [int] has 64 bits, and the allocation of [numOps] entries (79) is assumed
    to succeed; the version error (75) is given without its number.  operations/operatons.go 82-101 *)
Definition read_oper (buf : bytes) : res (oper * bytes) :=
  t <- get_be 1 buf ;;
  d <- get_be 1 (snd t) ;;
  i <- get_be 4 (snd d) ;;
  nl <- get_be 2 (snd i) ;;
  ns <- split_at (fst nl) (snd nl) ;;
  ol <- get_be 2 (snd ns) ;;
  op <- split_at (fst ol) (snd ol) ;;
  rl <- get_be 2 (snd op) ;;
  rest <- slice_from (u16 (2 + fst rl)) (snd op) ;;          (* uint16 addition, 101 *)
  Ok ({| o_index := fst i; o_type := fst t; o_dir := fst d; o_ns := fst ns; o_name := fst op |}, rest).
(** operations/operatons.go 81-102 *)
Fixpoint read_opers (n : nat) (buf : bytes) : res (list oper) :=
  match n with
  | O => Ok []
  | S n' =>
      o <- read_oper buf ;;
      l <- read_opers n' (snd o) ;;
      Ok (fst o :: l)
  end.
(** operations/operatons.go 66-105 *)
Definition table_from_bytes (buf : bytes) : res (list oper) :=
  m <- split_at 4 buf ;;
  if list_eq_dec N.eq_dec (fst m) Magic then
    v <- get_be 2 (snd m) ;;
    if fst v =? 1 then
      n <- get_be 4 (snd v) ;;
      read_opers (N.to_nat (fst n)) (snd n)
    else Err "Unknown operation table version"
  else Err "invalid magic number".

(** ** invoke/handlers.go *)
(** The package variables, invoke/handlers.go 36-53; handlers are opaque values. *)
Definition info := (bytes * bytes)%type.
(** invoke/handlers.go 36-53 *)
Record registry := {
  rr_handlers : list N; rr_info : list info;
  fnf_handlers : list N; fnf_info : list info;
  rs_handlers : list N; rs_info : list info;
  rc_handlers : list N; rc_info : list info;
  rr_imports : list info; fnf_imports : list info; rs_imports : list info; rc_imports : list info
}.
(** invoke/handlers.go 36-53 *)
Definition registry_init : registry :=
  {| rr_handlers := []; rr_info := []; fnf_handlers := []; fnf_info := [];
     rs_handlers := []; rs_info := []; rc_handlers := []; rc_info := [];
     rr_imports := []; fnf_imports := []; rs_imports := []; rc_imports := [] |}.

(** invoke/handlers.go 112-115, 124-127, 136-139, 148-151 *)
Definition export_rr (i : info) (h : N) (s : registry) : registry :=
  {| rr_handlers := rr_handlers s ++ [h]; rr_info := rr_info s ++ [i];
     fnf_handlers := fnf_handlers s; fnf_info := fnf_info s;
     rs_handlers := rs_handlers s; rs_info := rs_info s;
     rc_handlers := rc_handlers s; rc_info := rc_info s;
     rr_imports := rr_imports s; fnf_imports := fnf_imports s; rs_imports := rs_imports s; rc_imports := rc_imports s |}.
(** invoke/handlers.go 124-127 *)
Definition export_fnf (i : info) (h : N) (s : registry) : registry :=
  {| rr_handlers := rr_handlers s; rr_info := rr_info s;
     fnf_handlers := fnf_handlers s ++ [h]; fnf_info := fnf_info s ++ [i];
     rs_handlers := rs_handlers s; rs_info := rs_info s;
     rc_handlers := rc_handlers s; rc_info := rc_info s;
     rr_imports := rr_imports s; fnf_imports := fnf_imports s; rs_imports := rs_imports s; rc_imports := rc_imports s |}.
(** invoke/handlers.go 136-139 *)
Definition export_rs (i : info) (h : N) (s : registry) : registry :=
  {| rr_handlers := rr_handlers s; rr_info := rr_info s;
     fnf_handlers := fnf_handlers s; fnf_info := fnf_info s;
     rs_handlers := rs_handlers s ++ [h]; rs_info := rs_info s ++ [i];
     rc_handlers := rc_handlers s; rc_info := rc_info s;
     rr_imports := rr_imports s; fnf_imports := fnf_imports s; rs_imports := rs_imports s; rc_imports := rc_imports s |}.
(** invoke/handlers.go 148-151 *)
Definition export_rc (i : info) (h : N) (s : registry) : registry :=
  {| rr_handlers := rr_handlers s; rr_info := rr_info s;
     fnf_handlers := fnf_handlers s; fnf_info := fnf_info s;
     rs_handlers := rs_handlers s; rs_info := rs_info s;
     rc_handlers := rc_handlers s ++ [h]; rc_info := rc_info s ++ [i];
     rr_imports := rr_imports s; fnf_imports := fnf_imports s; rs_imports := rs_imports s; rc_imports := rc_imports s |}.

(** invoke/handlers.go 117-122, 129-134, 141-146, 153-158; [None] is nil. *)
Definition get_handler (l : list N) (id : N) : option N :=
  if u32 (len l) <=? id then None else nth_error l (N.to_nat id).
(** invoke/handlers.go 117-122 *)
Definition get_rr (s : registry) := get_handler (rr_handlers s).
(** invoke/handlers.go 129-134 *)
Definition get_fnf (s : registry) := get_handler (fnf_handlers s).
(** invoke/handlers.go 141-146 *)
Definition get_rs (s : registry) := get_handler (rs_handlers s).
(** invoke/handlers.go 153-158 *)
Definition get_rc (s : registry) := get_handler (rc_handlers s).

(** The search loop of the four Import functions, invoke/handlers.go 160-202. *)
Definition info_eqb (a b : info) : bool :=
  (if list_eq_dec N.eq_dec (fst a) (fst b) then true else false)
  && (if list_eq_dec N.eq_dec (snd a) (snd b) then true else false).
(** invoke/handlers.go 160-202 *)
Fixpoint find_info (k : N) (l : list info) (i : info) : option N :=
  match l with
  | [] => None
  | x :: l' => if info_eqb x i then Some (u32 k) else find_info (k + 1) l' i
  end.
(** invoke/handlers.go 160-202 *)
Definition import_in (l : list info) (i : info) : N * list info :=
  match find_info 0 l i with
  | Some k => (k, l)
  | None => (u32 (len l), l ++ [i])
  end.
(** invoke/handlers.go 160-169 *)
Definition import_rr (i : info) (s : registry) : N * registry :=
  let (k, l) := import_in (rr_imports s) i in
  (k, {| rr_handlers := rr_handlers s; rr_info := rr_info s; fnf_handlers := fnf_handlers s; fnf_info := fnf_info s;
         rs_handlers := rs_handlers s; rs_info := rs_info s; rc_handlers := rc_handlers s; rc_info := rc_info s;
         rr_imports := l; fnf_imports := fnf_imports s; rs_imports := rs_imports s; rc_imports := rc_imports s |}).
(** invoke/handlers.go 171-180 *)
Definition import_fnf (i : info) (s : registry) : N * registry :=
  let (k, l) := import_in (fnf_imports s) i in
  (k, {| rr_handlers := rr_handlers s; rr_info := rr_info s; fnf_handlers := fnf_handlers s; fnf_info := fnf_info s;
         rs_handlers := rs_handlers s; rs_info := rs_info s; rc_handlers := rc_handlers s; rc_info := rc_info s;
         rr_imports := rr_imports s; fnf_imports := l; rs_imports := rs_imports s; rc_imports := rc_imports s |}).
(** invoke/handlers.go 182-191 *)
Definition import_rs (i : info) (s : registry) : N * registry :=
  let (k, l) := import_in (rs_imports s) i in
  (k, {| rr_handlers := rr_handlers s; rr_info := rr_info s; fnf_handlers := fnf_handlers s; fnf_info := fnf_info s;
         rs_handlers := rs_handlers s; rs_info := rs_info s; rc_handlers := rc_handlers s; rc_info := rc_info s;
         rr_imports := rr_imports s; fnf_imports := fnf_imports s; rs_imports := l; rc_imports := rc_imports s |}).
(** invoke/handlers.go 193-202 *)
Definition import_rc (i : info) (s : registry) : N * registry :=
  let (k, l) := import_in (rc_imports s) i in
  (k, {| rr_handlers := rr_handlers s; rr_info := rr_info s; fnf_handlers := fnf_handlers s; fnf_info := fnf_info s;
         rs_handlers := rs_handlers s; rs_info := rs_info s; rc_handlers := rc_handlers s; rc_info := rc_info s;
         rr_imports := rr_imports s; fnf_imports := fnf_imports s; rs_imports := rs_imports s; rc_imports := l |}).

(** [convertOperations], invoke/handlers.go 98-110 *)
Fixpoint convert_operations (k : N) (l : list info) (ty dir : N) : list oper :=
  match l with
  | [] => []
  | i :: l' => {| o_index := u32 k; o_type := ty; o_dir := dir; o_ns := fst i; o_name := snd i |}
               :: convert_operations (k + 1) l' ty dir
  end.
(** [GetOperationsTable], invoke/handlers.go 72-96 (with [GetOperations], 55-70) *)
Definition get_table (s : registry) : list oper :=
  convert_operations 0 (rr_info s) OpRequestResponse DirExport
  ++ convert_operations 0 (fnf_info s) OpFireAndForget DirExport
  ++ convert_operations 0 (rs_info s) OpRequestStream DirExport
  ++ convert_operations 0 (rc_info s) OpRequestChannel DirExport
  ++ convert_operations 0 (rr_imports s) OpRequestResponse DirImport
  ++ convert_operations 0 (fnf_imports s) OpFireAndForget DirImport
  ++ convert_operations 0 (rs_imports s) OpRequestStream DirImport
  ++ convert_operations 0 (rc_imports s) OpRequestChannel DirImport.

(** The four families, selected by kind; histories of calls.  invoke/handlers.go 112-202 *)
Inductive kind := RR | FNF | RS | RC.
(** invoke/handlers.go 112-202 *)
Inductive reg_call := CExport (k : kind) (i : info) (h : N) | CImport (k : kind) (i : info).
(** invoke/handlers.go 112-151 *)
Definition do_export (k : kind) := match k with RR => export_rr | FNF => export_fnf | RS => export_rs | RC => export_rc end.
(** invoke/handlers.go 160-202 *)
Definition do_import (k : kind) := match k with RR => import_rr | FNF => import_fnf | RS => import_rs | RC => import_rc end.
(** invoke/handlers.go 117-158 *)
Definition do_get (k : kind) := match k with RR => get_rr | FNF => get_fnf | RS => get_rs | RC => get_rc end.
(** invoke/handlers.go 112-202 *)
Definition reg_step (s : registry) (c : reg_call) : registry :=
  match c with
  | CExport k i h => do_export k i h s
  | CImport k i => snd (do_import k i s)
  end.
(** invoke/handlers.go 36-202 *)
Definition reg_run (calls : list reg_call) : registry := fold_left reg_step calls registry_init.

(** ** handler/caller.go 18-64: index of an operation in the peer's table *)
(** handler/caller.go 18-64 *)
Fixpoint peer_find (ty : N) (t : list oper) (i : info) : N :=
  match t with
  | [] => 0
  | o :: t' => if (o_dir o =? DirExport) && (o_type o =? ty) && info_eqb (o_ns o, o_name o) i
               then o_index o else peer_find ty t' i
  end.
(** handler/caller.go 18-64 *)
Definition peer_import (k : kind) : list oper -> info -> N :=
  peer_find match k with RR => OpRequestResponse | FNF => OpFireAndForget
                       | RS => OpRequestStream | RC => OpRequestChannel end.

(** ** invoke/instances.go: [LiveInstances].  The map from pointers to stored
    instances, keyed by address; every method is one step under the mutex.
    The address of a [Put] is chosen by the allocator and given with the call. *)
(** invoke/instances.go 26-55 *)
Inductive inst_call := IPut (addr inst : N) | IGet (id : N) | IRemove (id : N).
(** invoke/instances.go 26-55 *)
Inductive inst_result := RHandle (h : N) | RInst (r : option N).
(** invoke/instances.go 15-24 *)
Definition inst_map := list (N * N).
(** invoke/instances.go 26-35 *)
Fixpoint inst_get (m : inst_map) (id : N) : option N :=
  match m with
  | [] => None
  | (a, x) :: m' => if a =? id then Some x else inst_get m' id
  end.
(** invoke/instances.go 46-55 *)
Definition inst_del (m : inst_map) (id : N) : inst_map := filter (fun p => negb (fst p =? id)) m.
(** invoke/instances.go 26-55 *)
Definition inst_step (m : inst_map) (c : inst_call) : inst_map * inst_result :=
  match c with
  | IPut a x => ((a, x) :: inst_del m a, RHandle a)                       (* 37-44 *)
  | IGet id => (m, RInst (inst_get m id))                                  (* 26-35 *)
  | IRemove id =>                                                          (* 46-55 *)
      match inst_get m id with
      | Some x => (inst_del m id, RInst (Some x))
      | None => (m, RInst None)
      end
  end.
(** invoke/instances.go 26-55 *)
Fixpoint inst_run (m : inst_map) (l : list inst_call) : inst_map * list inst_result :=
  match l with
  | [] => (m, [])
  | c :: l' => let (m1, r) := inst_step m c in let (m2, rs) := inst_run m1 l' in (m2, r :: rs)
  end.

(** ** invoke/portio.go *)
(** invoke/portio.go 8-13 *)
Record port_io := { po_port : bytes; po_data : bytes; po_complete : bool; po_next : bool }.
(** invoke/portio.go 73-76: the second constant repeats the expression of the first. *)
Definition PortFlagNext := 1.
(** invoke/portio.go 73-76 *)
Definition PortFlagComplete := 1.
(** [Encode], invoke/portio.go 35-56: [copy] then [payload[len(f.Port):]]. *)
Definition encode_port (f : port_io) : res bytes :=
  let flags := N.lor (if po_complete f then PortFlagComplete else 0) (if po_next f then PortFlagNext else 0) in
  put [flags] (put (be 2 (u16 (len (po_port f))))
    (copy_adv (po_port f) (len (po_port f)) (copy_end (po_data f))))
    (zeros (3 + len (po_port f) + len (po_data f))).
(** [Decode], invoke/portio.go 15-33; [Check], 79-81. *)
Definition decode_port (data : bytes) : res port_io :=
  fl <- get_be 1 data ;;
  pl <- get_be 2 (snd fl) ;;
  p <- split_at (fst pl) (snd pl) ;;
  Ok {| po_port := fst p; po_data := snd p;
        po_complete := N.land PortFlagComplete (fst fl) =? PortFlagComplete;
        po_next := N.land PortFlagNext (fst fl) =? PortFlagNext |}.
