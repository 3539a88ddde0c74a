(** What the loops of the source do, one round after the other and without any bound on the number of rounds. *)
From Verif.Model Require Import Base Env Primitives Prot Frame Message FlagEvent Flags Float Ping Clientinfo Ktxstats.

(** ** Loops *)
(** A round ends in another round, with the result of the loop, or in a panic.  [ends round n s o]: started in [s] the
    loop ends in its [n]-th round, and [o] is what comes of it.  A loop that never ends has no [n]. *)
Inductive ends {St R : Type} (round : St -> M (St + R) -> Prop) : nat -> St -> M R -> Prop :=
| ends_later n s s' o : round s (Ret (inl s')) -> ends round n s' o -> ends round (S n) s o
| ends_now s r : round s (Ret (inr r)) -> ends round 1 s (Ret r)
| ends_panic s p : round s (Panic p) -> ends round 1 s (Panic p).

(** The loop started in [s] does end, after at most [bound] rounds, and in one way only. *)
Definition gives {St R : Type} (round : St -> M (St + R) -> Prop) (s : St) (bound : nat) (o : M R) : Prop :=
  (exists n, ends round n s o) /\ forall n o', ends round n s o' -> o' = o /\ (n <= bound)%nat.

(** Rounds in which nothing but computing happens. *)
Definition just {St R : Type} (f : St -> M (St + R)) : St -> M (St + R) -> Prop := fun s o => o = f s.

(** ** The loops over frames *)
(** [while let Ok(info) = from_data_and_index(data, index) { body; index += info.size; }] *)
Inductive frame_round {St : Type} (E : env) (data : bytes) (body : St -> info -> M (St + St) -> Prop)
  : N * St -> M (N * St + St) -> Prop :=
| round_no_frame index st e : from_data_and_index E data index = Ret (Err e) -> frame_round E data body (index, st) (Ret (inr st))
| round_outside index st p : from_data_and_index E data index = Panic p -> frame_round E data body (index, st) (Panic p)
| round_goes_on index st i st' : from_data_and_index E data index = Ret (Ok i) -> body st i (Ret (inl st')) ->
    frame_round E data body (index, st) (Ret (inl (index + i_size i, st')))
| round_breaks index st i st' : from_data_and_index E data index = Ret (Ok i) -> body st i (Ret (inr st')) ->
    frame_round E data body (index, st) (Ret (inr st'))
| round_panics index st i p : from_data_and_index E data index = Ret (Ok i) -> body st i (Panic p) ->
    frame_round E data body (index, st) (Panic p).

(** [&data[info.body_range]] is [body] *)
Definition body_is (data : bytes) (i : info) (body : bytes) : Prop :=
  slice data (fst (i_body_range i)) (snd (i_body_range i)) = Ret body.
Definition body_outside (data : bytes) (i : info) (p : panic) : Prop :=
  slice data (fst (i_body_range i)) (snd (i_body_range i)) = Panic p.

(** ** src/prints.rs *)
(** 17-26 *)
Definition print_round (E : env) : cursor * list Print -> M (cursor * list Print + list Print) :=
  fun '(c, ps) =>
    match read_message_type E c with
    | (Ok mt, c1) =>
        if is_print mt then
          match read_print E c1 with
          | (Ok p, c2) => Ret (inl (c2, match pr_content p with [] => ps | _ => ps ++ [p] end))
          | (Err _, c2) => Ret (inl (c2, ps))
          end
        else Ret (inr ps)
    | (Err _, _) => Ret (inr ps)
    end.
(** 14-27 *)
Inductive prints_frame (E : env) (data : bytes) : list Print -> info -> M (list Print + list Print) -> Prop :=
| prints_no_body ps i : i_body_size i = 0 -> prints_frame E data ps i (Ret (inl ps))
| prints_outside ps i p : i_body_size i <> 0 -> body_outside data i p -> prints_frame E data ps i (Panic p)
| prints_body ps i body n ps' : i_body_size i <> 0 -> body_is data i body ->
    ends (just (print_round E)) n (cursor_new body, ps) (Ret ps') -> prints_frame E data ps i (Ret (inl ps')).

(** ** src/ping.rs *)
(** 22-33: the cursor, the pings so far and whether this frame gave one *)
Definition ping_round (E : env) : cursor * pings * bool -> M (cursor * pings * bool + pings * bool) :=
  fun '(c, total, did) =>
    match read_message_type E c with
    | (Ok mt, c1) =>
        if is_update_ping mt then
          match read_update_ping E c1 with
          | (Ok u, c2) =>
              Ret (inl (advance 2 c2,
                        aset N.eqb (up_player_number u) (aget_or N.eqb (up_player_number u) [] total ++ [up_ping u]) total,
                        true))
          | (Err _, c2) => Ret (inl (c2, total, did))
          end
        else Ret (inr (total, did))
    | (Err _, _) => Ret (inr (total, did))
    end.
(** 41-43 *)
Definition unless_enough (st : N * pings) : M ((N * pings) + (N * pings)) :=
  if 8 <=? fst st then Ret (inr st) else Ret (inl st).
(** 18-44: the number of samples and the pings *)
Inductive pings_frame (E : env) (data : bytes) : N * pings -> info -> M (N * pings + N * pings) -> Prop :=
| pings_no_body st i : i_body_size i = 0 -> pings_frame E data st i (unless_enough st)
| pings_outside st i p : i_body_size i <> 0 -> body_outside data i p -> pings_frame E data st i (Panic p)
| pings_none k total i body n total' : i_body_size i <> 0 -> body_is data i body ->
    ends (just (ping_round E)) n (cursor_new body, total, false) (Ret (total', false)) ->
    pings_frame E data (k, total) i (unless_enough (k, total'))
| pings_some k total i body n total' : i_body_size i <> 0 -> body_is data i body ->
    ends (just (ping_round E)) n (cursor_new body, total, false) (Ret (total', true)) ->
    pings_frame E data (k, total) i (unless_enough (k + 1, total')).

(** ** src/flags.rs *)
(** 39-56: the cursor, [current_print] and [prints] *)
Definition flag_round (E : env) : cursor * bytes * list bytes -> M (cursor * bytes * list bytes + bytes * list bytes) :=
  fun '(c, current, ps) =>
    match read_message_type E c with
    | (Err _, _) => Ret (inr (current, ps))
    | (Ok mt, c1) =>
        if is_print mt then
          match read_print E c1 with
          | (Ok p, c2) =>
              match pr_id p, pr_content p with
              | PiHigh, _ :: _ =>
                  match current with
                  | [] => Ret (inl (c2, pr_content p, ps))
                  | _ :: _ =>
                      Ret (inl (c2, [], ps ++ [if is_message_suffix E (pr_content p) then current ++ pr_content p else current]))
                  end
              | _, _ => Ret (inl (c2, current, ps))
              end
          | (Err _, c2) => Ret (inl (c2, current, ps))
          end
        else Ret (inl (c1, current, ps))
    end.
(** 30-61 *)
Inductive flags_frame (E : env) (data : bytes) : list bytes -> info -> M (list bytes + list bytes) -> Prop :=
| flags_no_body ps i : i_body_size i = 0 -> flags_frame E data ps i (Ret (inl ps))
| flags_outside ps i p : i_body_size i <> 0 -> body_outside data i p -> flags_frame E data ps i (Panic p)
| flags_not_here ps i body : i_body_size i <> 0 -> body_is data i body -> find body (lit "flag") = None ->
    flags_frame E data ps i (Ret (inl ps))
| flags_closed ps i body at_ n ps' : i_body_size i <> 0 -> body_is data i body -> find body (lit "flag") = Some at_ ->
    ends (just (flag_round E)) n (cursor_new body, [], ps) (Ret ([], ps')) -> flags_frame E data ps i (Ret (inl ps'))
| flags_open ps i body at_ n current ps' : i_body_size i <> 0 -> body_is data i body -> find body (lit "flag") = Some at_ ->
    ends (just (flag_round E)) n (cursor_new body, [], ps) (Ret (current, ps')) -> current <> [] ->
    flags_frame E data ps i (Ret (inl (ps' ++ [current]))).

(** ** src/frags.rs *)
(** 20-38 *)
Inductive frags_frame (E : env) (data : bytes) : list (Print * N) -> info -> M (list (Print * N) + list (Print * N)) -> Prop :=
| frags_no_body l i : i_body_size i = 0 -> frags_frame E data l i (Ret (inl l))
| frags_outside l i p : i_body_size i <> 0 -> body_outside data i p -> frags_frame E data l i (Panic p)
| frags_print l i body mt c p c' : i_body_size i <> 0 -> body_is data i body ->
    read_message_type E (cursor_new body) = (Ok mt, c) -> is_print mt = true -> read_print E c = (Ok p, c') ->
    pr_id p = PiMedium -> pr_content p <> [] -> frags_frame E data l i (Ret (inl (l ++ [(p, i_index i)])))
| frags_other_print l i body mt c p c' : i_body_size i <> 0 -> body_is data i body ->
    read_message_type E (cursor_new body) = (Ok mt, c) -> is_print mt = true -> read_print E c = (Ok p, c') ->
    (pr_id p <> PiMedium \/ pr_content p = []) -> frags_frame E data l i (Ret (inl l))
| frags_cut_print l i body mt c e c' : i_body_size i <> 0 -> body_is data i body ->
    read_message_type E (cursor_new body) = (Ok mt, c) -> is_print mt = true -> read_print E c = (Err e, c') ->
    frags_frame E data l i (Ret (inl l))
| frags_other_message l i body mt c : i_body_size i <> 0 -> body_is data i body ->
    read_message_type E (cursor_new body) = (Ok mt, c) -> is_print mt = false -> frags_frame E data l i (Ret (inl l))
| frags_no_message l i body e c : i_body_size i <> 0 -> body_is data i body ->
    read_message_type E (cursor_new body) = (Err e, c) -> frags_frame E data l i (Ret (inl l)).

(** 98-111: the players named by the message after the first print of the first frame, or first in a later one *)
Definition update_here (E : env) (k : N) (body : bytes) : list N :=
  let c := if k =? 1 then snd (read_print E (cursor_new body)) else cursor_new body in
  match read_message_type E c with
  | (Ok mt, c1) =>
      if is_update_frags mt then match read_update_frags E c1 with (Ok u, _) => [uf_player_number u] | (Err _, _) => [] end
      else []
  | (Err _, _) => []
  end.
(** 91-114 *)
Inductive killer_frame (E : env) (data : bytes) : N * list N -> info -> M (N * list N + N * list N) -> Prop :=
| killer_enough k l i : 4 <= k -> killer_frame E data (k, l) i (Ret (inr (k, l)))
| killer_no_body k l i : k < 4 -> i_body_size i = 0 -> killer_frame E data (k, l) i (Ret (inl (k, l)))
| killer_outside k l i p : k < 4 -> i_body_size i <> 0 -> body_outside data i p -> killer_frame E data (k, l) i (Panic p)
| killer_body k l i body : k < 4 -> i_body_size i <> 0 -> body_is data i body ->
    killer_frame E data (k, l) i (Ret (inl (k + 1, l ++ update_here E k body))).

(** ** src/duration.rs *)
(** 65-70 *)
Inductive clock_frame (E : env) (target : N) : N -> info -> M (N + N) -> Prop :=
| clock_reached ms i : target <= i_index i -> clock_frame E target ms i (Ret (inr ms))
| clock_runs ms i : i_index i < target -> ms + i_duration i < 2 ^ 32 -> clock_frame E target ms i (Ret (inl (ms + i_duration i)))
| clock_overflows ms i : i_index i < target -> 2 ^ 32 <= ms + i_duration i -> checked E = true ->
    clock_frame E target ms i (Panic POverflow)
| clock_wraps ms i : i_index i < target -> 2 ^ 32 <= ms + i_duration i -> checked E = false ->
    clock_frame E target ms i (Ret (inl ((ms + i_duration i) mod 2 ^ 32))).

(** ** src/clientinfo.rs *)
(** 27-49 *)
Definition clientinfo_round (E : env) (data : bytes) (max_offset : N) : N * list str -> M (N * list str + list str) :=
  fun '(offset, l) =>
    match slice data offset (offset + 512) with
    | Ret window =>
        match find window (lit "\name\") with
        | Some o =>
            match rfind_byte (firstn (N.to_nat (offset + o)) data) x00 with
            | Some z =>
                match find_byte (skipn (N.to_nat (z + 1)) data) x00 with
                | Some t =>
                    if (t <? 7) || (256 <? t) then Ret (inr l)
                    else
                      let l' := l ++ [to_unicode E (firstn (N.to_nat t) (skipn (N.to_nat (z + 1)) data))] in
                      if max_offset <=? z + 1 + t then Ret (inr l') else Ret (inl (z + 1 + t, l'))
                | None => Ret (inr l)
                end
            | None => Ret (inr l)
            end
        | None => Ret (inr l)
        end
    | Panic p => Panic p
    | OutOfFuel => OutOfFuel
    end.

(** ** src/ktxstats.rs *)
(** 25-38 *)
Inductive stats_round (E : env) (data : bytes) : N * bytes -> M (N * bytes + bytes) -> Prop :=
| stats_panics offset content p :
    (let! a := uadd E usize_bound offset 10 in let! d := slice_from data a in block_try_from E d) = Panic p ->
    stats_round E data (offset, content) (Panic p)
| stats_no_block offset content e :
    (let! a := uadd E usize_bound offset 10 in let! d := slice_from data a in block_try_from E d) = Ret (Err e) ->
    stats_round E data (offset, content) (Ret (inr content))
| stats_other_block offset content b :
    (let! a := uadd E usize_bound offset 10 in let! d := slice_from data a in block_try_from E d) = Ret (Ok b) ->
    is_demoinfo (b_hidden_message b) = false -> stats_round E data (offset, content) (Ret (inr content))
| stats_outside offset content b p :
    (let! a := uadd E usize_bound offset 10 in let! d := slice_from data a in block_try_from E d) = Ret (Ok b) ->
    is_demoinfo (b_hidden_message b) = true ->
    (let! from := uadd E usize_bound offset 18 in let! to := uadd E usize_bound from (b_body_size b) in slice data from to) = Panic p ->
    stats_round E data (offset, content) (Panic p)
| stats_last offset content b part :
    (let! a := uadd E usize_bound offset 10 in let! d := slice_from data a in block_try_from E d) = Ret (Ok b) ->
    is_demoinfo (b_hidden_message b) = true -> b_number b = 0 ->
    (let! from := uadd E usize_bound offset 18 in let! to := uadd E usize_bound from (b_body_size b) in slice data from to) = Ret part ->
    stats_round E data (offset, content) (Ret (inr (content ++ part)))
| stats_more offset content b part to :
    (let! a := uadd E usize_bound offset 10 in let! d := slice_from data a in block_try_from E d) = Ret (Ok b) ->
    is_demoinfo (b_hidden_message b) = true -> b_number b <> 0 ->
    (let! from := uadd E usize_bound offset 18 in let! to := uadd E usize_bound from (b_body_size b) in slice data from to) = Ret part ->
    (let! from := uadd E usize_bound offset 18 in uadd E usize_bound from (b_body_size b)) = Ret to ->
    stats_round E data (offset, content) (Ret (inl (to, content ++ part))).
