(** Model of the mesh of modules, /repo/transport/wasmrs/mesh/mesh.go, and of the
    tables of imported handlers, /repo/transport/wasmrs/host/instance.go 591-645. *)
From Verif Require Import Base InvokeModel.

(** [destination], transport/wasmrs/mesh/mesh.go 29-32; instances are numbered in the order they are loaded. *)
Record dest := { d_inst : nat; d_index : N }.

(** transport/wasmrs/host/instance.go 591-645: the four tables [importedRR], [importedRFNF],
    [importedRS], [importedRC]. *)
Definition slots := list (option dest).
(** transport/wasmrs/host/instance.go 52-55 *)
Record tables := { t_rr : slots; t_fnf : slots; t_rs : slots; t_rc : slots }.
(** transport/wasmrs/host/instance.go 52-55 *)
Definition no_tables : tables := {| t_rr := []; t_fnf := []; t_rs := []; t_rc := [] |}.
(** [SetRequestResponseHandler] and the like, transport/wasmrs/host/instance.go 591-596: the table is extended
    with nil up to [index+1] entries, computed in uint32, then indexed.  The
    allocation is assumed to succeed. *)
Definition set_slot (i : N) (d : dest) (l : slots) : res slots :=
  let l' := l ++ repeat None (N.to_nat (u32 (i + 1)) - List.length l) in
  if (i <? len l') then Ok (firstn (N.to_nat i) l' ++ Some d :: skipn (S (N.to_nat i)) l') else Panic.
(** [getRequestResponseHandler] and the like, transport/wasmrs/host/instance.go 598-603 *)
Definition get_slot (i : N) (l : slots) : option dest :=
  if len l <=? i then None else match nth_error l (N.to_nat i) with Some o => o | None => None end.
(** transport/wasmrs/mesh/mesh.go 249-258: the table is chosen by the type of the importing operation;
    any other type sets nothing. *)
Definition set_handler (ty i : N) (d : dest) (t : tables) : res tables :=
  if ty =? OpRequestResponse then l <- set_slot i d (t_rr t) ;; Ok {| t_rr := l; t_fnf := t_fnf t; t_rs := t_rs t; t_rc := t_rc t |}
  else if ty =? OpFireAndForget then l <- set_slot i d (t_fnf t) ;; Ok {| t_rr := t_rr t; t_fnf := l; t_rs := t_rs t; t_rc := t_rc t |}
  else if ty =? OpRequestStream then l <- set_slot i d (t_rs t) ;; Ok {| t_rr := t_rr t; t_fnf := t_fnf t; t_rs := l; t_rc := t_rc t |}
  else if ty =? OpRequestChannel then l <- set_slot i d (t_rc t) ;; Ok {| t_rr := t_rr t; t_fnf := t_fnf t; t_rs := t_rs t; t_rc := l |}
  else Ok t.
(** transport/wasmrs/host/instance.go 598-645 *)
Definition get_handler (k : kind) (i : N) (t : tables) : option dest :=
  get_slot i match k with RR => t_rr t | FNF => t_fnf t | RS => t_rs t | RC => t_rc t end.

(** A Go map with byte strings as keys: an association list without repeated keys.  transport/wasmrs/mesh/mesh.go 63-72 *)
Fixpoint find {A} (k : bytes) (m : list (bytes * A)) : option A :=
  match m with [] => None | (x, v) :: m' => if list_eq_dec N.eq_dec k x then Some v else find k m' end.
(** transport/wasmrs/mesh/mesh.go 166, 194-208 *)
Fixpoint assign {A} (k : bytes) (v : A) (m : list (bytes * A)) : list (bytes * A) :=
  match m with [] => [(k, v)] | (x, w) :: m' => if list_eq_dec N.eq_dec k x then (x, v) :: m' else (x, w) :: assign k v m' end.

(** [Mesh], transport/wasmrs/mesh/mesh.go 22-27, with the handler tables of the instances.  [m_files] is
    [instances]; [m_closed] are the instances handed to the goroutine that
    closes them after five seconds (158-163).  The atomic pointers of [exports]
    are held by the map only, so they are modelled by the value they point to. *)
Record mesh := {
  m_files : list (bytes * nat);
  m_exports : list (bytes * list (bytes * dest));
  m_pending : list (nat * oper);
  m_tables : list tables;
  m_closed : list nat }.
(** [New], transport/wasmrs/mesh/mesh.go 48-60 *)
Definition mesh_new : mesh := {| m_files := []; m_exports := []; m_pending := []; m_tables := []; m_closed := [] |}.

(** The lookup made by every entry point (transport/wasmrs/mesh/mesh.go 63-72, 238-247). *)
Definition find_export (ns name : bytes) (m : mesh) : option dest :=
  match find ns (m_exports m) with None => None | Some t => find name t end.
(** transport/wasmrs/mesh/mesh.go 193-209 *)
Definition add_export (n : nat) (o : oper) (m : mesh) : mesh :=
  let t := match find (o_ns o) (m_exports m) with Some t => t | None => [] end in
  {| m_files := m_files m;
     m_exports := assign (o_ns o) (assign (o_name o) {| d_inst := n; d_index := o_index o |} t) (m_exports m);
     m_pending := m_pending m; m_tables := m_tables m; m_closed := m_closed m |}.
(** [linkOperation], transport/wasmrs/mesh/mesh.go 237-261: [None] when there is no exporter (false). *)
Definition link (n : nat) (o : oper) (m : mesh) : res (option mesh) :=
  match find_export (o_ns o) (o_name o) m with
  | None => Ok None
  | Some d =>
      match nth_error (m_tables m) n with
      | None => Ok (Some m)                                                  (* not reachable: instances are never removed *)
      | Some t =>
          t' <- set_handler (o_type o) (o_index o) d t ;;
          Ok (Some {| m_files := m_files m; m_exports := m_exports m; m_pending := m_pending m;
                      m_tables := firstn n (m_tables m) ++ t' :: skipn (S n) (m_tables m); m_closed := m_closed m |})
      end
  end.
(** transport/wasmrs/mesh/mesh.go 213-228 *)
Definition with_pending (p : list (nat * oper)) (m : mesh) : mesh :=
  {| m_files := m_files m; m_exports := m_exports m; m_pending := p; m_tables := m_tables m; m_closed := m_closed m |}.
(** The loop over the operations of the module, transport/wasmrs/mesh/mesh.go 187-219. *)
Definition link_op (n : nat) (o : oper) (m : mesh) : res mesh :=
  if o_dir o =? DirExport then Ok (add_export n o m)
  else if o_dir o =? DirImport then
    r <- link n o m ;;
    match r with Some m' => Ok m' | None => Ok (with_pending (m_pending m ++ [(n, o)]) m) end
  else Ok m.
(** transport/wasmrs/mesh/mesh.go 187-219 *)
Fixpoint link_ops (n : nat) (l : list oper) (m : mesh) : res mesh :=
  match l with [] => Ok m | o :: l' => m' <- link_op n o m ;; link_ops n l' m' end.
(** transport/wasmrs/mesh/mesh.go 221-229: what is still not satisfied is kept, in order. *)
Fixpoint relink (p : list (nat * oper)) (kept : list (nat * oper)) (m : mesh) : res mesh :=
  match p with
  | [] => Ok (with_pending kept m)
  | (n, o) :: p' =>
      r <- link n o m ;;
      match r with Some m' => relink p' kept m' | None => relink p' (kept ++ [(n, o)]) m end
  end.
(** [LoadModule], transport/wasmrs/mesh/mesh.go 138-174, for a module whose instance has the given operations,
    and [linkOperations], 176-235. *)
Definition load (file : bytes) (ops : list oper) (m : mesh) : res mesh :=
  let n := List.length (m_tables m) in
  let m0 := {| m_files := assign file n (m_files m); m_exports := m_exports m; m_pending := m_pending m;
               m_tables := m_tables m ++ [no_tables];
               m_closed := m_closed m ++ match find file (m_files m) with Some x => [x] | None => [] end |} in
  m1 <- link_ops n ops m0 ;;
  if existsb (fun o => o_dir o =? DirExport) ops && negb (match m_pending m1 with [] => true | _ => false end)
  then relink (m_pending m1) [] m1 else Ok m1.
(** [LoadModules], transport/wasmrs/mesh/mesh.go 128-136, where every module loads. *)
Fixpoint load_all (l : list (bytes * list oper)) (m : mesh) : res mesh :=
  match l with [] => Ok m | (f, ops) :: l' => m' <- load f ops m ;; load_all l' m' end.

(** transport/wasmrs/mesh/mesh.go 263-293: the metadata [None] is nil; [PutUint32] panics below four bytes.
    The result is the instance that is called and the metadata it is given
    (the caller's own bytes, overwritten). *)
Definition forward (d : dest) (md : option bytes) : res (nat * option bytes) :=
  match md with
  | None => Ok (d_inst d, None)
  | Some b => if len b <? 4 then Panic else Ok (d_inst d, Some (be 4 (d_index d) ++ dropN 4 b))
  end.
(** transport/wasmrs/mesh/mesh.go 62-120: [None] is the nil result for an unknown operation. *)
Definition request (ns name : bytes) (md : option bytes) (m : mesh) : option (res (nat * option bytes)) :=
  match find_export ns name m with None => None | Some d => Some (forward d md) end.
