(** Python's insertion ordered [dict]/[OrderedDict] with string keys (or another key type with
    a decidable equality) as association lists. *)
From Verif Require Export PyStr.

Class EqbOk (K : Type) := { keqb : K -> K -> bool;
                            keqb_spec : forall x y, reflect (x = y) (keqb x y) }.

#[global] Instance string_eqb_ok : EqbOk string :=
  {| keqb := String.eqb; keqb_spec := String.eqb_spec |}.

Definition pair_eqb {A B} `{EqbOk A} `{EqbOk B} (x y : A * B) : bool :=
  keqb (fst x) (fst y) && keqb (snd x) (snd y).
Lemma pair_eqb_spec {A B} `{EqbOk A} `{EqbOk B} (x y : A * B) : reflect (x = y) (pair_eqb x y).
Proof.
  unfold pair_eqb. destruct x as [a b], y as [c d]; simpl.
  destruct (keqb_spec a c) as [->|Hn]; simpl.
  - destruct (keqb_spec b d) as [->|Hn]; constructor; congruence.
  - constructor; congruence.
Qed.
#[global] Instance pair_eqb_ok {A B} `{EqbOk A} `{EqbOk B} : EqbOk (A * B) :=
  {| keqb := pair_eqb; keqb_spec := pair_eqb_spec |}.

Section Dict.
  Context {K : Type} {EK : EqbOk K} {V : Type}.

  Definition dict := list (K * V).

  (** [d.get(k)] *)
  Fixpoint dget (k : K) (d : dict) : option V :=
    match d with
    | [] => None
    | (k', v) :: d' => if keqb k k' then Some v else dget k d'
    end.

  (** [k in d] *)
  Definition dmem (k : K) (d : dict) : bool := existsb (fun p => keqb k (fst p)) d.

  (** [d[k] = v]: keeps the position of an existing key, appends a new one. *)
  Fixpoint dset (k : K) (v : V) (d : dict) : dict :=
    match d with
    | [] => [(k, v)]
    | (k', v') :: d' => if keqb k k' then (k, v) :: d' else (k', v') :: dset k v d'
    end.

  (** [d.pop(k, None)] *)
  Definition dpop (k : K) (d : dict) : dict := filter (fun p => negb (keqb k (fst p))) d.

  Definition dkeys (d : dict) : list K := map fst d.
  Definition dvals (d : dict) : list V := map snd d.

  (** [d[k]] where a missing key raises KeyError. *)
  Definition dgetE (k : K) (d : dict) : res V :=
    match dget k d with Some v => Ok v | None => Raise (KeyError "") end.
End Dict.
Arguments dict K V : clear implicits.

(** A list of keys as a Python set. *)
Definition kmem {K} `{EqbOk K} (k : K) (l : list K) : bool := existsb (keqb k) l.

(** [_differences] of table.py 619-634 and mygration.py 96-113 on the key lists:
    (added, removed, overlap). *)
Definition differences {K} `{EqbOk K} {V W} (from : dict K V) (to : dict K W)
  : list K * list K * list K :=
  (filter (fun k => negb (dmem k from)) (dkeys to),
   filter (fun k => negb (dmem k to)) (dkeys from),
   filter (fun k => dmem k to) (dkeys from)).
