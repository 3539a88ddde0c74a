(** Ping updates.  The server writes for each player, back to back at the start of a frame
    body: svc_updateping (36), player, 16-bit ping, svc_updatepl (53), player, packet loss. *)
From Verif.Model Require Import Base.
From Verif.Spec Require Import Mvd.

Record ping_update := mkPingUpdate { pu_player : byte; pu_ping : N; pu_loss : byte }.
Definition encode_ping (u : ping_update) : bytes :=
  [x24; pu_player u] ++ enc16 (pu_ping u) ++ [x35; pu_player u; pu_loss u].
Definition wf_ping (u : ping_update) : Prop := pu_ping u < 65536.

(** How an arbitrary body is read: records of seven bytes as long as each starts with 36;
    the last two bytes of the last record may be missing. *)
Fixpoint ping_records_n (n : nat) (d : bytes) : list (N * N) :=
  match n, d with
  | S n', t :: player :: lo :: hi :: _ :: r =>
      if n_of t =? 36 then (n_of player, n_of lo + 256 * n_of hi) :: ping_records_n n' (skipn 2 r)
      else []
  | _, _ => []
  end.
Definition ping_records (body : bytes) : list (N * N) := ping_records_n (length body) body.

(** The (player, ping) pairs of each frame that has any, and those of the first eight such
    frames. *)
Definition ping_frames (fs : list frame) : list (list (N * N)) :=
  filter (fun l => negb (is_empty l)) (map (fun f => ping_records (f_body f)) fs).
Definition sampled (fs : list frame) : list (N * N) := concat (firstn 8 (ping_frames fs)).

(** Sampling the demo [fs] followed by [rest] ends before [rest] or stops there quietly. *)
Definition sampling_ends (fs : list frame) (rest : bytes) : Prop :=
  stops (len (encode fs ++ rest)) rest \/ 8 <= len (ping_frames fs).

(** the pings reported for one player *)
Definition pings_of (player : N) (l : list (N * N)) : list N :=
  map snd (filter (fun x => fst x =? player) l).
Definition sum (l : list N) : N := fold_right N.add 0 l.

(** [tbl] maps exactly the players of [l] to the floor of the mean of their pings. *)
Definition averages (tbl : list (N * N)) (l : list (N * N)) : Prop :=
  NoDup (map fst tbl) /\
  (forall p, In p (map fst tbl) <-> In p (map fst l)) /\
  (forall p a, In (p, a) tbl -> a = sum (pings_of p l) / len (pings_of p l)).
