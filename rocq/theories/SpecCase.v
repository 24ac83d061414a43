(** A server as in SpecServer.v that does not mind the letter case of the names of columns, keys and
    foreign keys, as MySQL does not (whether that of tables matters depends on the system it runs on;
    here it does). *)
From Verif Require Export SpecServer Mygration.

(** Names that differ in letter case at most. *)
Definition same_word (a b : string) : bool := String.eqb (lower a) (lower b).

Section Server.
  (** How names are compared. *)
  Variable same : string -> string -> bool.

  Definition key_same (a b : key_id) : bool :=
    match a, b with KPrimary, KPrimary => true | KNamed x, KNamed y => same x y | _, _ => false end.

  Definition loose_pass1 (l : list column) (o : aop) : option (list column) :=
    match o with
    | ChangeColumn c => replace_id c_name same c l
    | RemoveColumn c => drop_id c_name same (c_name c) l
    | _ => Some l
    end.
  Definition loose_pass2 (l : list column) (o : aop) : option (list column) :=
    match o with
    | AddColumn c p =>
        if has_id c_name same (c_name c) l then None
        else match p with
             | PEnd => Some (l +++ [c])
             | PFirst => Some (c :: l)
             | PAfter a => put_after c_name same a c l
             end
    | _ => Some l
    end.
  Definition loose_cols (ops : list aop) (l : list column) : option (list column) :=
    match run_all loose_pass1 ops l with Some l' => run_all loose_pass2 ops l' | None => None end.
  Definition loose_key_pass1 (l : list index) (o : aop) : option (list index) :=
    match o with
    | RemoveKey i => drop_id id_of_key key_same (id_of_key i) l
    | ChangeKey i => drop_id id_of_key key_same (KNamed (ix_name i)) l
    | _ => Some l
    end.
  Definition loose_key_pass2 (l : list index) (o : aop) : option (list index) :=
    match o with AddKey i | ChangeKey i => put_end id_of_key key_same i l | _ => Some l end.
  Definition loose_keys (ops : list aop) (l : list index) : option (list index) :=
    match run_all loose_key_pass1 ops l with Some l' => run_all loose_key_pass2 ops l' | None => None end.
  Definition loose_fk_drop (l : list constraint) (o : aop) : option (list constraint) :=
    match o with RemoveConstraint k | ChangeConstraint k => drop_id k_name same (k_name k) l | _ => Some l end.
  Definition loose_fk_add (before : list constraint) (l : list constraint) (o : aop) : option (list constraint) :=
    match o with
    | AddConstraint k | ChangeConstraint k => if has_id k_name same (k_name k) before then None else put_end k_name same k l
    | _ => Some l
    end.
  Definition loose_fks (ops : list aop) (l : list constraint) : option (list constraint) :=
    match run_all loose_fk_drop ops l with Some l' => run_all (loose_fk_add l) ops l' | None => None end.
  Definition loose_alter (ops : list aop) (t : stable) : option stable :=
    match loose_cols ops (st_cols t), loose_keys ops (st_keys t), loose_fks ops (st_fks t) with
    | Some c, Some k, Some f => Some (mkStable c k f)
    | _, _, _ => None
    end.
  Definition loose_create (cols : list column) (keys : list index) (fks : list constraint) : option stable :=
    match run_all (fun l c => put_end c_name same c l) cols [],
          run_all (fun l i => put_end id_of_key key_same i l) keys [],
          run_all (fun l k => put_end k_name same k l) fks [] with
    | Some c, Some k, Some f => Some (mkStable c k f)
    | _, _, _ => None
    end.
  Definition loose_exec (s : server) (o : op) : option server :=
    match o with
    | OCreate t =>
        match s (t_name t) with
        | Some _ => None
        | None => match loose_create (dvals (t_columns t)) (dvals (t_indexes t)) (dvals (t_constraints t)) with
                  | Some st => Some (supd s (t_name t) (Some st))
                  | None => None
                  end
        end
    | OAlter a =>
        match s (al_table a) with
        | None => None
        | Some t => match loose_alter (al_ops a) t with
                    | Some t' => Some (supd s (al_table a) (Some t'))
                    | None => None
                    end
        end
    | ODropTable n => match s n with None => None | Some _ => Some (supd s n None) end
    | ODisable | OEnable | ORowInsert _ _ | ORowUpdate _ _ | ORowDelete _ _ => Some s
    end.
  Definition loose_all (ops : list op) (s : server) : option server := run_all loose_exec ops s.
End Server.

(** ** Files and server spell every name alike *)

Definition names_at {V} (f : table -> dict string V) (name : V -> string) (d : tables) (n : string) : list string :=
  match dget n d with Some t => map name (dvals (f t)) | None => [] end.
Definition column_names := names_at t_columns c_name.
Definition index_names := names_at t_indexes ix_name.
Definition fk_names := names_at t_constraints k_name.
Definition one_spelling (l : list string) : Prop := forall a b, In a l -> In b l -> lower a = lower b -> a = b.
(** No name of a table differs in letter case only from another one, on either side or across. *)
Definition spelled_alike (from to : tables) : Prop :=
  forall n, one_spelling (column_names from n +++ column_names to n) /\ one_spelling (index_names from n +++ index_names to n)
            /\ one_spelling (fk_names from n +++ fk_names to n).
