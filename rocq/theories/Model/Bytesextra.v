(** src/bytesextra.rs *)
From Verif.Model Require Import Base.

(** src/bytesextra.rs:3-12.  [index_from] is at most the length of the data, so
    [&data[index_from..]] cannot panic; the model keeps the check. *)
Definition offsets_between (data a b : bytes) : M (option (N * N)) :=
  match find data a with
  | None => Ret None
  | Some i =>
      let index_from := i + len a in
      let! rest := slice_from data index_from in
      match find rest b with
      | None => Ret None
      | Some j =>
          let index_to := index_from + j in
          if index_from <? index_to then Ret (Some (index_from, index_to)) else Ret None
      end
  end.
