(** The status page as a reader sees it, and the times that requests take. *)
From Coq Require Import Sorted.
From Verif Require Import Base Http SpecConn App.

(** ** Reading the page *)
(** What follows the first occurrence of [pat]. *)
Fixpoint starts (pat s : bytes) : option bytes :=
  match pat, s with
  | [], _ => Some s
  | p :: pat', c :: s' => if p =? c then starts pat' s' else None
  | _ :: _, [] => None
  end.
Fixpoint after (pat s : bytes) : option bytes :=
  match starts pat s with
  | Some r => Some r
  | None => match s with [] => None | _ :: s' => after pat s' end
  end.
(** Text without tags. *)
Definition plain (s : bytes) : Prop := Forall (fun c => c <> 60) s.
(** The text up to the next tag. *)
Fixpoint text (s : bytes) : bytes :=
  match s with
  | [] => []
  | c :: s' => if c =? 60 then [] else c :: text s'
  end.
(** The value with the given label. *)
Definition value_of (label s : bytes) : option bytes :=
  option_map text (after (str "<span class=""label"">" ++ label ++ str "</span><span class=""value"">") s).
(** The status codes and the numbers beside them; there are at most [n]. *)
Fixpoint code_list (n : nat) (s : bytes) : list (bytes * bytes) :=
  match n with
  | O => []
  | S n' =>
    match after (str "<span class='code-num'>") s with
    | None => []
    | Some r => match after (str "</span>") r with
                | None => []
                | Some r' => (text r, text r') :: code_list n' r'
                end
    end
  end.
Definition codes_of (s : bytes) : list (bytes * bytes) := code_list (length s) s.

(** The foot of the page: version and instance. *)
Definition foot (s : bytes) : option bytes :=
  option_map text (after (str "<a href=""https://github.com/rhargreaves/ion"">ion</a> v") s).

(** A number of hundredths in the usual notation. *)
Definition hundredths (s : bytes) (h : Z) : Prop :=
  exists whole d1 d2, s = whole ++ [46; d1; d2] /\ decimal whole (h / 100) /\
    d1 = 48 + h mod 100 / 10 /\ d2 = 48 + h mod 10.

(** ** Requests *)
Definition has_status (code : Z) (x : request * option response) : bool :=
  match snd x with Some r => rs_status r =? code | None => false end.
Definition asks_status (rq : request) : Prop := rq_path rq = str "/_ion/status" /\ rq_method rq = str "GET".
(** [m] lists the status codes that the requests of [l] were answered with, in ascending order, and
    how often each occurred. *)
Definition tally (l : list (request * option response)) (m : list (Z * Z)) : Prop :=
  StronglySorted (fun x y => fst x < fst y) m /\
  forall c n, In (c, n) m <-> 0 < n /\ n = lenZ (filter (has_status c) l).

(** ** Durations *)
(** [took app w0 l ds w]: from [w0] on, the requests of [l] were answered one after the other;
    [ds] are the microseconds between the first and the last look at the clock in each. *)
Inductive took (app : request -> world -> world * app_answer) (w0 : world)
  : list (request * option response) -> list Z -> world -> Prop :=
| took_nothing : took app w0 [] [] w0
| took_more : forall l ds w rq w' r, took app w0 l ds w -> app rq w = (w', Answers r) ->
    took app w0 (l ++ [(rq, Some r)]) (ds ++ [(w_clock w (pred (w_readings w')) - w_clock w (w_readings w)) / 1000]) w'.

(** Time does not go backwards. *)
Definition steady (w : world) : Prop := forall m n, (m <= n)%nat -> w_clock w m <= w_clock w n.
Definition total_of (l : list Z) : Z := fold_right Z.add 0 l.
