(** * Debug output (C64): notions used in the statements *)
From Coq Require Import String Ascii.
From Verif Require Import Base ShapeModel TensorModel FmtModel Spec TensorSpec.

(** The layout: a scalar is its element; otherwise the items of the outermost dimension in
    brackets, separated by blanks (elements), a comma and a line break (rows), or a comma
    and an empty line (everything larger). *)
Definition separator (inner : list nat) : string :=
  match inner with
  | [] => " "
  | [_] => "," ++ newline ++ " "
  | _ => "," ++ newline ++ newline ++ " "
  end.

Fixpoint join {A} (sep : string) (items : list (list (piece A))) : list (piece A) :=
  match items with
  | [] => []
  | [x] => x
  | x :: items' => x ++ Lit sep :: join sep items'
  end.

(** [item n k xs] is the [k]-th group of [n] elements. *)
Definition item {A} (n k : nat) (xs : list A) : list A := firstn n (skipn (k * n) xs).

Fixpoint layout {A} (ds : list nat) (xs : list A) : list (piece A) :=
  match ds with
  | [] => map Elem xs
  | d :: ds' =>
    Lit "[" :: join (separator ds') (map (fun k => layout ds' (item (prod ds') k xs)) (seq 0 d)) ++ [Lit "]"]
  end.

(** The elements in a text, in order. *)
Definition elements {A} (l : list (piece A)) : list A :=
  flat_map (fun p => match p with Elem v => [v] | Lit _ => [] end) l.

Definition header {A} (name : string) (ds : list nat) : list (piece A) :=
  Lit ("Tensor<" ++ name ++ "> {") :: if 1 <? length ds then [Lit newline] else [].

Definition footer {A} (ds : list nat) : list (piece A) := [Lit (", shape: " ++ show_vec ds); Lit "}"].
