(** A concrete transaction context, for examples. *)
From Verif Require Import Base Host SpecEvm SpecVm Vm Client GoAdapter Floria SpecTx GoStorage Toy MemFacts ClientFacts TxFacts.
From Coq Require Import Lia ZArith List Bool.
Import ListNotations.

(** association lists *)
Fixpoint get {A} (d : A) (l : list (Z * A)) (k : Z) : A := match l with [] => d | (k', x) :: l => if k =? k' then x else get d l k end.
Fixpoint put {A} (l : list (Z * A)) (k : Z) (x : A) : list (Z * A) := match l with [] => [(k, x)] | (k', y) :: l => if k =? k' then (k, x) :: l else (k', y) :: put l k x end.
Lemma get_put {A} (d : A) l k x j : get d (put l k x) j = if j =? k then x else get d l j.
Proof.
  induction l as [|[k' y] l IH]; cbn [put get]; [reflexivity|]. destruct (Z.eqb_spec k k') as [->|N]; cbn [get]; [destruct (j =? k'); reflexivity|].
  rewrite IH. destruct (Z.eqb_spec j k') as [->|]; [|reflexivity]. destruct (Z.eqb_spec k' k); [congruence|reflexivity].
Qed.

Record ledger : Set := mkLedger {
  l_balance : list (Z * Z); l_nonce : list (Z * Z); l_code : list (Z * list Z); l_store : list (Z * Z); l_warm : list Z; l_logs : list log;
  l_base : list (Z * Z)   (* the storage at the start of the transaction *) }.
Definition ledger0 : ledger := mkLedger [] [] [] [] [] [] [].
Definition byteb (b : Z) : bool := (0 <=? b) && (b <? 256).
Definition lg_balance (w : ledger) (a : Z) : Z := get 0 (l_balance w) a mod 2 ^ 256.
Definition lg_nonce (w : ledger) (a : Z) : Z := get 0 (l_nonce w) a mod 2 ^ 64.
Definition lg_code (w : ledger) (a : Z) : list Z := let c := get [] (l_code w) a in if forallb byteb c && (zlen c <=? 2 ^ 32) then c else [].
Definition lg_hash (bs : list Z) : Z := let h := fold_left (fun h b => (h * 257 + b + 1) mod 2 ^ 32) bs 5 in h * 2 ^ 224 + h.
Definition lg_code_hash (w : ledger) (a : Z) : Z :=
  if (lg_balance w a =? 0) && (lg_nonce w a =? 0) && (zlen (lg_code w a) =? 0) then 0 else lg_hash (lg_code w a).
Definition slot (a k : Z) : Z := a * 2 ^ 256 + k.
Definition lg_storage (w : ledger) (a k : Z) : Z := get 0 (l_store w) (slot a k) mod 2 ^ 256.
Definition lg_set_balance (w : ledger) (a v : Z) : ledger := mkLedger (put (l_balance w) a v) (l_nonce w) (l_code w) (l_store w) (l_warm w) (l_logs w) (l_base w).
Definition lg_set_nonce (w : ledger) (a n : Z) : ledger := mkLedger (l_balance w) (put (l_nonce w) a n) (l_code w) (l_store w) (l_warm w) (l_logs w) (l_base w).
Definition lg_set_code (w : ledger) (a : Z) (c : list Z) : ledger := mkLedger (l_balance w) (l_nonce w) (put (l_code w) a c) (l_store w) (l_warm w) (l_logs w) (l_base w).
Definition lg_set_storage (w : ledger) (a k v : Z) : storage_status * ledger :=
  (GetStorageStatus (get 0 (l_base w) (slot a k)) (lg_storage w a k) v, mkLedger (l_balance w) (l_nonce w) (l_code w) (put (l_store w) (slot a k) v) (l_warm w) (l_logs w) (l_base w)).
Definition lg_access (w : ledger) (a : Z) : access_status * ledger :=
  (if existsb (Z.eqb a) (l_warm w) then WARM else COLD, mkLedger (l_balance w) (l_nonce w) (l_code w) (l_store w) (a :: l_warm w) (l_logs w) (l_base w)).
Definition lg_log (w : ledger) (a : Z) (ts d : list Z) : ledger := mkLedger (l_balance w) (l_nonce w) (l_code w) (l_store w) (l_warm w) (l_logs w ++ [mkLog a ts d]) (l_base w).
(** [keep]: SELFDESTRUCT does nothing; otherwise it moves the balance (and a balance moved to the account itself is lost) *)
Definition lg_destruct (keep : bool) (w : ledger) (a b : Z) : bool * ledger :=
  if keep then (false, w)
  else let x := lg_balance w a in let w := lg_set_balance w a 0 in
    (true, if a =? b then w else lg_set_balance w b (Z.min (lg_balance w b + x) (2 ^ 256 - 1))).
Definition lg_rc (keep : bool) : run_context ledger := mkRC ledger
  lg_nonce lg_balance (fun w a => zlen (lg_code w a)) lg_code_hash lg_code lg_storage (fun _ _ _ => 0) (fun _ n => n mod 2 ^ 256)
  lg_set_storage (fun w _ _ _ => w) lg_access (fun w a k => lg_access w (slot a k)) (lg_destruct keep) lg_log.
Definition lg_context (keep : bool) : context ledger := mkContext (lg_rc keep)
  (fun w a => negb ((lg_balance w a =? 0) && (lg_nonce w a =? 0) && (zlen (lg_code w a) =? 0)))
  lg_set_balance lg_set_nonce lg_set_code l_logs.
(** two precompiled contracts: one returns a constant, one fails; blocks before number 10 are Istanbul blocks *)
Definition lg_precompile (rev : revision) (a : Z) : option precompile :=
  if a =? 4 then Some (mkPre (fun _ => 15) (fun _ => Some [1; 2; 3])) else if a =? 5 then Some (mkPre (fun _ => 10) (fun _ => None)) else None.
Definition lg_create (s n : Z) : Z := let c := 2 ^ 100 + (s * 31 + n) mod 2 ^ 64 in if c =? s then 2 ^ 100 + 2 ^ 64 else c.
Definition lg_create2 (s x h : Z) : Z := 2 ^ 101 + (s + x * 7 + h) mod 2 ^ 64.
Definition lg_floria (keep : bool) : floria ledger := mkFloria (lg_context keep) lg_hash lg_create lg_create2 lg_precompile (fun _ => [4; 5])
  (fun b => if b <? 10 then Istanbul else Cancun) (fun b o p => mkTx p o 0xBB (Z.min 1000 (Z.max 0 b)) 1700000000 30000000 5 250 7 3 [11; 12]) (fun _ => []).

Lemma forallb_byte c : forallb byteb c = true <-> Forall is_byte c.
Proof.
  rewrite forallb_forall, Forall_forall. unfold byteb, is_byte. split; intros Hc x Hx; specialize (Hc x Hx); rewrite ?andb_true_iff, ?Z.leb_le, ?Z.ltb_lt in *; exact Hc.
Qed.
Lemma word_small v : is_word v -> v mod 2 ^ 256 = v. Proof. intros [? ?]. apply Z.mod_small. auto. Qed.
Lemma lg_context_ok keep : context_ok (lg_context keep).
Proof.
  split; cbn [lg_context x_rc lg_rc rc_balance rc_nonce rc_code rc_code_size rc_code_hash rc_storage rc_transient rc_block_hash x_set_balance x_set_nonce x_set_code rc_access_account rc_access_storage]; intros.
  - apply mod_word.
  - apply Z.mod_pos_bound. reflexivity.
  - unfold lg_code. destruct (forallb byteb _ && _) eqn:E; [apply andb_true_iff in E; destruct E as [E1 E2]; split; [apply forallb_byte; exact E1|apply Z.leb_le; exact E2]|split; [constructor|cbv; discriminate]].
  - reflexivity.
  - unfold lg_code_hash. destruct (_ && _); [split; reflexivity || (cbv; discriminate)|]. unfold lg_hash. set (g := fun h b => _). assert (B : forall l h, 0 <= h < 2 ^ 32 -> 0 <= fold_left g l h < 2 ^ 32).
    { induction l as [|b l IH]; intros h Hh; [exact Hh|]. cbn [fold_left]. apply IH. apply Z.mod_pos_bound. reflexivity. }
    specialize (B (lg_code w a) 5 ltac:(cbv; split; congruence)). set (h := fold_left g _ _) in *. clearbody h. unfold is_word. change (2 ^ 256) with (2 ^ 32 * 2 ^ 224). change (2 ^ 32) with 4294967296 in *.
    assert (4294967296 < 2 ^ 224) by reflexivity. set (k := 2 ^ 224) in *. clearbody k. nia.
  - apply mod_word.
  - split; reflexivity || (cbv; discriminate).
  - apply mod_word.
  - unfold lg_balance. cbn [lg_set_balance l_balance]. rewrite get_put. destruct (b =? a); [apply word_small; assumption|reflexivity].
  - reflexivity.
  - reflexivity.
  - unfold lg_nonce. cbn [lg_set_nonce l_nonce]. rewrite get_put. destruct (b =? a); [apply Z.mod_small; assumption|reflexivity].
  - reflexivity.
  - reflexivity.
  - unfold lg_code. cbn [lg_set_code l_code]. rewrite get_put, Z.eqb_refl. match goal with B : Forall is_byte code, L : zlen code <= _ |- _ => apply forallb_byte in B; apply Z.leb_le in L; rewrite B, L end. reflexivity.
  - unfold lg_code. cbn [lg_set_code l_code]. rewrite get_put. destruct (Z.eqb_spec b a); [contradiction|reflexivity].
  - reflexivity.
  - reflexivity.
  - split; reflexivity.
  - split; reflexivity.
Qed.
Lemma lg_tx_ok b o p : is_addr o -> is_word p -> tx_ok (fl_block (lg_floria true) b o p).
Proof.
  intros Ho Hp. split; cbn [lg_floria fl_block tx_gas_price tx_origin tx_coinbase tx_number tx_timestamp tx_gas_limit tx_prev_randao tx_chain_id tx_base_fee tx_blob_base_fee tx_blob_hashes]; try assumption;
    unfold is_addr, is_word; try lia; try (split; reflexivity || (cbv; discriminate)); try reflexivity. repeat constructor; unfold is_word; lia.
Qed.
Lemma lg_create_addr s n : is_addr (lg_create s n) /\ 2 ^ 100 <= lg_create s n < 2 ^ 101.
Proof.
  unfold lg_create, is_addr. pose proof (Z.mod_pos_bound (s * 31 + n) (2 ^ 64) eq_refl) as B. assert (2 ^ 100 + 2 ^ 64 < 2 ^ 101) by reflexivity. assert (2 ^ 101 < 2 ^ 160) by reflexivity.
  destruct (_ =? s); lia.
Qed.
Lemma lg_create2_addr s x h : is_addr (lg_create2 s x h) /\ 2 ^ 101 <= lg_create2 s x h < 2 ^ 102.
Proof.
  unfold lg_create2, is_addr. pose proof (Z.mod_pos_bound (s + x * 7 + h) (2 ^ 64) eq_refl) as B. assert (2 ^ 101 + 2 ^ 64 < 2 ^ 102) by reflexivity. assert (2 ^ 102 < 2 ^ 160) by reflexivity. lia.
Qed.
Lemma lg_hash_word bs : is_word (lg_hash bs).
Proof.
  unfold lg_hash. set (g := fun h b => _). assert (B : forall l h, 0 <= h < 2 ^ 32 -> 0 <= fold_left g l h < 2 ^ 32).
  { induction l as [|b l IH]; intros h Hh; [exact Hh|]. cbn [fold_left]. apply IH. apply Z.mod_pos_bound. reflexivity. }
  specialize (B bs 5 ltac:(cbv; split; congruence)). set (h := fold_left g _ _) in *. clearbody h. unfold is_word. change (2 ^ 256) with (2 ^ 32 * 2 ^ 224). change (2 ^ 32) with 4294967296 in *.
  assert (4294967296 < 2 ^ 224) by reflexivity. set (k := 2 ^ 224) in *. clearbody k. nia.
Qed.
Lemma lg_floria_ok keep : floria_ok (lg_floria keep).
Proof.
  split; cbn [lg_floria fl_ctx fl_keccak fl_create fl_create2 fl_precompile].
  - apply lg_context_ok.
  - apply lg_hash_word.
  - apply lg_create_addr.
  - apply lg_create2_addr.
  - unfold lg_precompile. intros rev a c input. destruct (a =? 4); [intros E; injection E as <-; cbn; lia|]. destruct (a =? 5); [intros E; injection E as <-; cbn; lia|discriminate].
  - unfold lg_precompile. intros rev a c input out. destruct (a =? 4); [intros E; injection E as <-; cbn; intros E; injection E as <-; split; [bytes|reflexivity]|].
    destruct (a =? 5); [intros E; injection E as <-; cbn; discriminate|discriminate].
  - apply lg_tx_ok.
Qed.
Lemma lg_addresses keep : addresses_ok (lg_floria keep).
Proof.
  assert (D1 : 2 ^ 102 < DriverAddress) by reflexivity. assert (D2 : 2 ^ 102 < StateContractAddress) by reflexivity. assert (D3 : 2 ^ 101 < 2 ^ 102) by reflexivity.
  split; cbn [lg_floria fl_create fl_create2]; intros; try (pose proof (proj2 (lg_create_addr s n))); try (pose proof (proj2 (lg_create2_addr s x h))); try lia.
  unfold lg_create. destruct (Z.eqb_spec (2 ^ 100 + (s * 31 + n) mod 2 ^ 64) s) as [E|N]; [|exact N]. pose proof (Z.mod_pos_bound (s * 31 + n) (2 ^ 64) eq_refl). lia.
Qed.
Lemma lg_accounts keep : accounts_ok (lg_context keep).
Proof.
  split; intros; try (unfold same_account; cbn; auto; fail).
  cbn [lg_context x_rc lg_rc rc_selfdestruct rc_balance rc_nonce rc_code]. unfold lg_destruct. destruct keep; [cbn [snd]; auto with zarith|]. cbn [snd].
  assert (E : lg_balance (lg_set_balance w a 0) x = lg_balance w x) by (unfold lg_balance; cbn [lg_set_balance l_balance]; rewrite get_put; destruct (Z.eqb_spec x a); [contradiction|reflexivity]).
  destruct (Z.eqb_spec a b) as [->|N]; [rewrite E; split; [lia|split; reflexivity]|]. split; [|split; reflexivity].
  unfold lg_balance at 2. cbn [lg_set_balance l_balance]. rewrite get_put. destruct (Z.eqb_spec x b) as [->|].
  - fold (lg_set_balance w a 0). rewrite E. pose proof (mod_word (get 0 (l_balance w) b)) as [B1 B2]. pose proof (mod_word (get 0 (l_balance w) a)) as [B3 B4]. fold (lg_balance w b) in *. fold (lg_balance w a) in *.
    rewrite Z.mod_small by lia. lia.
  - rewrite <- E. unfold lg_balance. cbn [lg_set_balance l_balance]. lia.
Qed.
Definition lg_total (w : ledger) : Z := sum (map (fun e => snd e mod 2 ^ 256) (l_balance w)).
Lemma total_put l a v : is_word v -> sum (map (fun e => snd e mod 2 ^ 256) (put l a v)) = sum (map (fun e => snd e mod 2 ^ 256) l) - get 0 l a mod 2 ^ 256 + v.
Proof.
  intros Hv. induction l as [|[k y] l IH]; cbn [put get map sum fold_right snd].
  - rewrite word_small by exact Hv. rewrite Zmod_0_l. lia.
  - unfold sum in *. destruct (a =? k); cbn [map fold_right snd]; [rewrite word_small by exact Hv; lia|rewrite IH; lia].
Qed.
Lemma total_get l a : get 0 l a mod 2 ^ 256 <= sum (map (fun e => snd e mod 2 ^ 256) l) /\ 0 <= sum (map (fun e => snd e mod 2 ^ 256) l).
Proof.
  induction l as [|[k y] l [IH1 IH2]]; cbn [get map sum fold_right snd]; [rewrite Zmod_0_l; cbn; lia|]. unfold sum in *. pose proof (Z.mod_pos_bound y (2 ^ 256) eq_refl). destruct (a =? k); lia.
Qed.
Lemma lg_supply keep : supply (lg_context keep) lg_total.
Proof.
  split; intros; try reflexivity.
  - exact (proj1 (total_get (l_balance w) a)).
  - exact (total_put (l_balance w) a v ltac:(assumption)).
  - cbn [lg_context x_rc lg_rc rc_selfdestruct]. unfold lg_destruct. destruct keep; [cbn [snd]; lia|]. cbn [snd].
    assert (E : lg_total (lg_set_balance w a 0) = lg_total w - lg_balance w a) by (unfold lg_total, lg_balance; cbn [lg_set_balance l_balance]; rewrite total_put by (unfold is_word; lia); lia).
    pose proof (mod_word (get 0 (l_balance w) a)) as [B3 B4]. fold (lg_balance w a) in *.
    destruct (Z.eqb_spec a b) as [->|N]; [lia|]. set (w1 := lg_set_balance w a 0) in *. clearbody w1. pose proof (mod_word (get 0 (l_balance w1) b)) as [B1 B2]. fold (lg_balance w1 b) in *.
    assert (T : forall v, is_word v -> lg_total (lg_set_balance w1 b v) = lg_total w1 - lg_balance w1 b + v) by (intros v Hv; exact (total_put (l_balance w1) b v Hv)).
    rewrite T by (unfold is_word; lia). lia.
Qed.
Lemma lg_supply_exact : forall w a b, lg_total (snd (rc_selfdestruct (x_rc (lg_context true)) w a b)) = lg_total w.
Proof. reflexivity. Qed.
Lemma lg_run keep w block t o w' : transaction_ok t -> ref_run_tx (lg_floria keep) w block t = (o, w') -> runs_to (lg_floria keep) w block t o w'.
Proof. intros Ht E. pose proof (run_ref _ (lg_floria_ok keep) w block t Ht) as R. rewrite E in R. exact R. Qed.
Lemma lg_call keep w r kind p res w' : params_ok p -> 0 <= r_depth r -> ref_call (lg_floria keep) w r kind p = (res, w') -> calls_to (lg_floria keep) w r kind p res w'.
Proof. intros Hp Hd E. pose proof (proj1 (call_ref _ (lg_floria_ok keep) w r kind p Hp Hd)) as C. rewrite E in C. exact C. Qed.
(** accounts 1 (nonce 3) and 2 (nonce 9), which is poor, and contracts: 16 stores 7 at 5; 17 destroys itself; 18 stores and fails; 19 creates *)
Definition lg_start : ledger := mkLedger [(1, 1000000); (2, 500)] [(1, 3); (2, 9)]
  [(16, [0x60; 7; 0x60; 5; 0x55]); (17, [0x60; 1; 0xFF]); (18, [0x60; 7; 0x60; 5; 0x55; 0xFE])] [] [] [] [].
Definition lg_tx (s : Z) (to : option Z) (n v limit price : Z) (input : list Z) : transaction := mkTransaction s to n input v limit price None.
Ltac lg_tx_ok := split; cbn [lg_tx t_sender t_recipient t_nonce t_input t_value t_gas_limit t_gas_price];
  first [ intros ? E; injection E as <-; unfold is_addr; lia | discriminate | bytes | unfold is_addr, is_word; lia | reflexivity | split; [cbv; discriminate|reflexivity] ].
