(** The score table: which messages are scored, what each is worth, and who is charged for
    a team kill whose killer is not named. *)
From Verif.Model Require Import Base Env Clients FragEvent.
From Verif.Spec Require Import Mvd Messages Obituary.

(** The obituaries of a demo: every frame whose body opens with a medium-level print with a
    text; each comes with its frame and all later ones. *)
Fixpoint obituaries (fs : list frame) : list (message * list frame) :=
  match fs with
  | [] => []
  | f :: fs' =>
      match messages (f_body f) with
      | m :: _ => if has_text m && (n_of (m_level m) =? 1) then [(m, fs)] else []
      | [] => []
      end ++ obituaries fs'
  end.

(** The player number in a score update (type 14, player, 16-bit score) at the start of
    [d]. *)
Definition score_update (d : bytes) : list N :=
  match d with
  | t :: n :: _ :: _ :: _ => if n_of t =? 14 then [n_of n] else []
  | _ => []
  end.

Definition has_body (f : frame) : bool := negb (is_empty (f_body f)).

(** The score updates near an obituary [m] that opens the first frame of [fs]: directly
    behind it, and at the start of the next two frames with a body. *)
Definition nearby_updates (m : message) (fs : list frame) : list N :=
  match fs with
  | [] => []
  | f :: fs' =>
      score_update (skipn (length (encode_message m)) (f_body f))
      ++ concat (map (fun f => score_update (f_body f)) (firstn 2 (filter has_body fs')))
  end.

(** the first element with a property *)
Definition first_with {A} (P : A -> Prop) (l : list A) (a : A) : Prop :=
  exists l1 l2, l = l1 ++ a :: l2 /\ P a /\ Forall (fun b => ~ P b) l1.

(** [killer] is charged for the death of [victim], given the clients and the numbers in the
    nearby score updates: the first update whose (first) client with that number is in the
    team of the (first) client named [victim] and has another name. *)
Definition charged (cs : list Client) (victim : str) (nums : list N) (killer : str) : Prop :=
  exists v, first_with (fun c => c_name c = victim) cs v /\
  exists n k,
    first_with (fun n => exists c, first_with (fun c => c_number c = n) cs c
                                   /\ c_team c = c_team v /\ c_name c <> victim) nums n /\
    first_with (fun c => c_number c = n) cs k /\ c_name k = killer.

(** The entries an event makes in the score table. *)
Definition entries (cs : list Client) (nums : list N) (e : result FragEvent) (l : list (str * Z)) : Prop :=
  match e with
  | Ok (Frag killer _) => l = [(killer, 1%Z)]
  | Ok (Death player) => l = [(player, (-1)%Z)]
  | Ok (Suicide player) => l = [(player, (-2)%Z)]
  | Ok (SuicideByWeapon player) => l = [(player, (-1)%Z)]
  | Ok (Teamkill killer) => l = [(killer, (-1)%Z)]
  | Ok (TeamkillByUnknown victim) =>
      (exists k, charged cs victim nums k /\ l = [(k, (-1)%Z)])
      \/ ((forall k, ~ charged cs victim nums k) /\ l = [])
  | Err _ => l = []
  end.

(** The entries a message with text [text] makes: white space at its end does not count, and a
    text that is no obituary makes none. *)
Definition scored (cs : list Client) (nums : list N) (text : str) (l : list (str * Z)) : Prop :=
  exists t, trimmed text t /\
    ((exists e, reads t e /\ entries cs nums (Ok e) l) \/ ((forall e, ~ reads t e) /\ l = [])).

(** sum of the entries of one name *)
Definition total (name : str) (l : list (str * Z)) : Z :=
  fold_right Z.add 0%Z (map snd (filter (fun x => beq (fst x) name) l)).

(** The scores of the entries [l], as a table *)
Definition tabulates (tbl : list (str * Z)) (l : list (str * Z)) : Prop :=
  NoDup (map fst tbl) /\
  (forall name, In name (map fst tbl) <-> In name (map fst l)) /\
  (forall name v, In (name, v) tbl -> v = total name l).
