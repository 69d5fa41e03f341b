(** * PlusOps: adding two intervals with [+].

    Model of [InstanceMixins.__add__] (sequences.py:95-107). *)
From Verif Require Export SeqOps.
Open Scope Z_scope.

Section WithEnv.
Context `{Env}.

(** The sum is a new object [w] whose [__dict__] is that of the left operand [s]
    (97): two objects, one set of attributes.  An object of the model has its own
    record, so [share a b] copies the record of [a], which has just been written,
    to [b].  Simplification: the records are kept in step during the call only; what
    is written to one of the two objects afterwards does not show on the other. *)
Definition share (a b : oid) : M unit := ao <- get_seq a ;; mod_seq b (fun _ => ao).

(** The body of the loop of [set_subset_list] (153-156) on the sum [w]: a child
    whose [super_instance] is the left operand [s] is not at [w] ([is]), so it is
    taken out of the list of [s], which is the list of [w]. *)
Definition twin_take (s w x : oid) : M unit :=
  xo <- get_seq x ;;
  if bool_decide (s_super xo = Some w) then ret tt
  else remove_superset x ;;; share s w ;;; mod_seq x (set_s_super (Some w)).

(** The [subset_list] setter (484-492) with [set_subset_list] (138-164) inlined, on
    the sum [w] of which [s] has the attributes. *)
Definition twin_setter (s w : oid) (l : list oid) : M unit :=
  orig <- gets (fun h => s_subset (sob h w)) ;;
  v <- sl_init l ;;
  sc <- gets (fun h => subset_class h (s_cls (sob h w))) ;;
  oks <- mapM (fun x => isinstance_m x sc) (sv_vals v) ;;
  if forallb id oks then
    v2 <- sl_init (sv_vals v) ;;
    rebind_subset w v2 ;;; share w s ;;;
    forM (sv_vals v) (twin_take s w) ;;;
    seq_set_contains w ;;; share w s ;;;
    set_subset_precedence w ;;;
    forM orig (fun o =>
      isin <- gets (fun h => sl_contains h (s_subset (sob h w)) o) ;;
      if (isin : bool) then ret tt else remove_superset o ;;; share w s)
  else raise PyException.

(** [issubclass(c, d)] where the class attribute [d] may be None. *)
Definition subclass_of_m (c : cid) (d : option cid) : M bool :=
  match d with None => raise TypeError | Some d => gets (fun h => issubclass h c d) end.

(** [s + x] (95-107).  In the second branch (102-104) the sum is put among the
    children of [x]; unless [s] is one of them, only the sum is written. *)
Definition seq_plus (s x : oid) : M oid :=
  so <- get_seq s ;;
  w <- construct3 (Some (s_cls so)) (s_start so) (s_end so) (s_label so) ;;
  share s w ;;;
  up <- gets (fun h => superset_class h (s_cls (sob h x))) ;;
  below <- subclass_of_m (s_cls so) up ;;
  if (below : bool) then
    wo <- get_seq w ;;
    v <- sl_add (OSeq w) (subset_slv wo) [x] ;;
    share w s ;;;
    twin_setter s w (sv_vals v) ;;;
    ret w
  else
    down <- gets (fun h => subset_class h (s_cls (sob h x))) ;;
    above <- subclass_of_m (s_cls so) down ;;
    if (above : bool) then
      xo <- get_seq x ;;
      v <- sl_add (OSeq x) (subset_slv xo) [w] ;;
      subset_setter x (sv_vals v) ;;;
      (if bool_decide (s ∈ s_subset xo) then share s w else share w s) ;;;
      ret w
    else raise ValueError.

End WithEnv.
