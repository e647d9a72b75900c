(** utils.py, and as much of Python's classes as it relies on: class statements with C3 method
    resolution, abstract methods, attribute lookup with the descriptor readonly_static_property, and
    assignment to attributes of classes and instances. Classes are identified by name. *)
From Verif Require Import PyBase.

(** ** Attributes of a class body *)
(** What a getter returns: a constant, an attribute of the class it is called on, or half of one. *)
Inductive expr :=
| EConst (v : pyval)
| EAttr (name : pystr)
| EHalf (e : expr).
Inductive method_kind := MStatic | MClass | MPlain.
Inductive attr :=
| AMethod (kd : method_kind) (abstract : bool) (body : expr)  (** def, with @staticmethod, @classmethod or neither; @abc.abstractmethod *)
| AStatic (getter : pystr)                                    (** utils.readonly_static_property(getter): the name of its function *)
| AValue (v : pyval).                                         (** any other object *)

(** A class object: __bases__, __dict__, __mro__ (without [object]), whether its metaclass is ABCMeta,
    and __abstractmethods__. *)
Record cobj := mkcobj {
  c_bases : list pystr;
  c_attrs : dict attr;
  c_mro : list pystr;
  c_abc : bool;
  c_abstract : list pystr
}.
Definition world := dict cobj.

(** ** C3 linearisation (type_mro_implementation and pmerge in CPython's typeobject.c) *)
Definition smem (x : pystr) (l : list pystr) : bool := existsb (str_eqb x) l.
Definition nonempty_seq (s : list pystr) : bool := match s with [] => false | _ => true end.
(** The first head that is in no tail. *)
Definition candidate (seqs : list (list pystr)) : option pystr :=
  find (fun h => negb (existsb (fun s => smem h (tl s)) seqs))
       (flat_map (fun s => match s with [] => [] | h :: _ => [h] end) seqs).
Definition drop_first (h : pystr) (s : list pystr) : list pystr :=
  match s with x :: s' => if str_eqb x h then s' else s | [] => [] end.
Fixpoint merge (fuel : nat) (seqs : list (list pystr)) : option (list pystr) :=
  match filter nonempty_seq seqs with
  | [] => Some []
  | seqs' =>
      match candidate seqs', fuel with
      | Some h, S n => match merge n (map (drop_first h) seqs') with Some r => Some (h :: r) | None => None end
      | _, _ => None
      end
  end.
Fixpoint no_duplicates (l : list pystr) : bool :=
  match l with [] => true | x :: l' => negb (smem x l') && no_duplicates l' end.

(** ** Attribute lookup along the MRO (_PyType_Lookup) *)
Definition own_attr (w : world) (c name : pystr) : option attr :=
  match dget c w with Some o => dget name (c_attrs o) | None => None end.
Fixpoint first_attr (w : world) (l : list pystr) (name : pystr) : option attr :=
  match l with
  | [] => None
  | c :: l' => match own_attr w c name with Some a => Some a | None => first_attr w l' name end
  end.
Definition mro_of (w : world) (c : pystr) : list pystr :=
  match dget c w with Some o => c_mro o | None => [] end.
Definition find_attr (w : world) (c name : pystr) : option attr := first_attr w (mro_of w c) name.
Definition is_abstract_attr (o : option attr) : bool :=
  match o with Some (AMethod _ true _) => true | _ => false end.

(** ** class c(bases...): attrs *)
(** type.__new__, then ABCMeta.__new__ (abc.py: _abc_init, compute_abstract_methods): the names in the
    class body that are abstract, and those of the bases' sets for which getattr(cls, name) is still
    abstract. [abc]: the statement asks for ABCMeta, which is also inherited. Simplification: the
    bases have to be in the world already and the name has to be new. *)
Definition bases_of (w : world) (bs : list pystr) : option (list cobj) :=
  fold_right (fun b r => match dget b w, r with Some o, Some l => Some (o :: l) | _, _ => None end) (Some []) bs.
Definition define_class (w : world) (c : pystr) (bs : list pystr) (abc : bool) (attrs : dict attr) : res world :=
  match dget c w, bases_of w bs with
  | None, Some os =>
      if no_duplicates bs then
        let seqs := map c_mro os ++ [bs] in
        match merge (length (concat seqs)) seqs with
        | Some rest =>
            let isabc := abc || existsb c_abc os in
            let o := mkcobj bs attrs (c :: rest) isabc [] in
            let w' := w ++ [(c, o)] in
            let own := filter (fun n => is_abstract_attr (dget n attrs)) (dkeys attrs) in
            let inherited := filter (fun n => is_abstract_attr (find_attr w' c n)) (flat_map c_abstract os) in
            Ok (w ++ [(c, mkcobj bs attrs (c :: rest) isabc (if isabc then own ++ inherited else []))])
        | None => Err TypeError
        end
      else Err TypeError
  | _, _ => Err TypeError
  end.
Record class_statement := mkclass { s_name : pystr; s_bases : list pystr; s_abc : bool; s_attrs : dict attr }.
Fixpoint define_all (w : world) (l : list class_statement) : res world :=
  match l with
  | [] => Ok w
  | s :: l' => do? w' <- define_class w (s_name s) (s_bases s) (s_abc s) (s_attrs s); define_all w' l'
  end.

(** ** utils.is_abstract, utils.py:9-14 *)
(** A class whose metaclass is not ABCMeta has no attribute __abstractmethods__. *)
Definition class_is_abstract (w : world) (c : pystr) : bool :=
  match dget c w with Some o => c_abc o && negb (match c_abstract o with [] => true | _ => false end) | None => false end.
(** object.__new__ refuses to make an instance of an abstract class. *)
Definition instantiate (w : world) (c : pystr) : res unit :=
  if class_is_abstract w c then Err TypeError else Ok tt.

(** ** Reading an attribute of a class: c.name *)
(** utils.py:41-53: readonly_static_property.__get__(None, cls) is getattr(cls, getter name)(). A plain
    function would be called without its argument, and the other objects here are not callable.
    Simplification: the value of a method that is not called is not modelled. [fuel] bounds the
    recursion, as Python's recursion limit does. *)
Fixpoint eval_expr (get : pystr -> res pyval) (e : expr) : res pyval :=
  match e with
  | EConst v => Ok v
  | EAttr a => get a
  | EHalf e' => do? v <- eval_expr get e'; match v with VInt z => Ok (VInt (z / 2)) | _ => Err TypeError end
  end.
Fixpoint get_attr (fuel : nat) (w : world) (c name : pystr) : res pyval :=
  match fuel with
  | O => Err OutOfFuel
  | S n =>
      match find_attr w c name with
      | None => Err AttributeError
      | Some (AValue v) => Ok v
      | Some (AMethod _ _ _) => Err Unmodelled
      | Some (AStatic g) =>
          match find_attr w c g with
          | None => Err AttributeError
          | Some (AMethod MPlain _ _) => Err TypeError
          | Some (AMethod _ _ body) => eval_expr (get_attr n w c) body
          | Some (AStatic _) => do? _ <- get_attr n w c g; Err TypeError
          | Some (AValue _) => Err TypeError
          end
      end
  end.
(** Reading an attribute of an instance of [c] whose __dict__ is [d] (_PyObject_GenericGetAttr): the
    descriptor has no __set__, so the instance's own dictionary comes first; then as on the class,
    with __get__(obj, type(obj)). *)
Definition get_instance_attr (fuel : nat) (w : world) (c : pystr) (d : dict pyval) (name : pystr) : res pyval :=
  match find_attr w c name with
  | Some (AMethod _ _ _) | Some (AStatic _) | Some (AValue _) =>
      match dget name d with Some v => Ok v | None => get_attr fuel w c name end
  | None => match dget name d with Some v => Ok v | None => Err AttributeError end
  end.

(** ** Assigning to an attribute of a class: c.name = v (type.__setattr__) *)
(** Descriptors in the class itself are not consulted; __abstractmethods__ is not computed again. *)
Definition set_attr (w : world) (c name : pystr) (v : pyval) : res world :=
  match dget c w with
  | Some o => Ok (dset c (mkcobj (c_bases o) (dset name (AValue v) (c_attrs o)) (c_mro o) (c_abc o) (c_abstract o)) w)
  | None => Err AttributeError
  end.
