(** What the parser reads and forgets: specification for C56, C46, C69, C75, C80 and C83.

    Four constructs leave nothing in the tree: export lists, exceptions (! ...),
    WITH COMPONENT(S) constraints and extension groups [[ ... ]]. *)
From Coq Require Import ZArith List Bool.
From Verif Require Import Tokens Ast Grammar.
Import ListNotations.
Local Open Scope Z_scope.

(** The productions of these constructs: asn1.y:400-401 (Exports), asn1.y:725
    (ExtensionAdditionGroup), asn1.y:787 (ExtensionAdditionAlternativesGroup),
    asn1.y:1014-1015 (InnerTypeConstraints), asn1.y:1048 (ExceptionSpec). *)
Definition forgotten (n : Z) : bool := existsb (Z.eqb n) [25; 26; 145; 171; 270; 271; 287].

(** A derivation tree without what is written in these constructs. *)
Fixpoint remembered (T : tree) : tree :=
  match T with
  | Leaf t => Leaf t
  | Node n l => Node n (if forgotten n then [] else map remembered l)
  end.

(** The tokens of a text outside of these constructs. *)
Definition outside (T : tree) : list token := leaves (remembered T).
