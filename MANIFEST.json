{
 "claims": [
  {
   "property": "C01",
   "status": "proved",
   "theorems": [
    "C01_buffer_is_a_vector"
   ],
   "note": "history refinement of a list, all allocation outcomes"
  },
  {
   "property": "C02",
   "status": "partial",
   "theorems": [
    "C02_insert_stores_data_refuted",
    "C02_insert_full_refuted",
    "C02_insert_partial",
    "C02_insert_at_end_partial",
    "C02_insert_beyond"
   ],
   "note": "claim is false of the code: the data is never written for i < size and a full buffer is overrun; the partial theorems give what holds"
  },
  {
   "property": "C03",
   "status": "partial",
   "theorems": [
    "C03_size_plus_wraps_refuted",
    "C03_shrink_refuted",
    "C03_size_plus_partial",
    "C03_size_setters_bounded",
    "C03_size_minus_exact",
    "C03_size_set_exact"
   ],
   "note": "claim is false of the code: a wrapping size_plus is accepted and alloc can shrink below the size; setters are otherwise bounded"
  },
  {
   "property": "C04",
   "status": "partial",
   "theorems": [
    "C04_erase_overlap_refuted",
    "C04_erase_partial",
    "C04_erase_out_of_range"
   ],
   "note": "claim is false of the code: memcpy on overlapping ranges whenever two or more elements follow"
  },
  {
   "property": "C05",
   "status": "partial",
   "theorems": [
    "C05_forward_iteration",
    "C05_reverse_iteration_refuted",
    "C05_reverse_iteration_full_refuted",
    "C05_reverse_iteration_partial"
   ],
   "note": "forward half proved; reverse half is false of the code because rbegin is one past the last element"
  },
  {
   "property": "C06",
   "status": "proved",
   "theorems": [
    "C06_fixed_ring",
    "C06_scope"
   ],
   "note": "history refinement of a bounded list"
  },
  {
   "property": "C07",
   "status": "proved",
   "theorems": [
    "C07_growing_deque",
    "C06_scope"
   ],
   "note": "history refinement of an unbounded list, all allocation outcomes"
  },
  {
   "property": "C08",
   "status": "partial",
   "theorems": [
    "C08_push_back_range_fixed",
    "C08_push_back_range_grow_partial",
    "C08_first_growth_refuted"
   ],
   "note": "fixed half proved; growing half is false of the code when the first allocation is for more than eight elements, proved otherwise"
  },
  {
   "property": "C09",
   "status": "partial",
   "theorems": [
    "C09_push_front_range_fixed_partial",
    "C09_push_front_range_grow_partial",
    "C09_first_growth_refuted",
    "C09_long_range_refuted",
    "C09_empty_range_refuted"
   ],
   "note": "claim is false of the code for a range longer than the ring, an empty range, and a first growth beyond eight; proved otherwise"
  },
  {
   "property": "C10",
   "status": "proved",
   "theorems": [
    "C10_forward",
    "C10_reverse"
   ],
   "note": "all states with front < capacity and size <= capacity"
  },
  {
   "property": "C11",
   "status": "partial",
   "theorems": [
    "C11_clear_partial",
    "C11_clear_destructor_partial",
    "C11_clear_size_refuted",
    "C11_clear_full_refuted"
   ],
   "note": "claim is false of the code with a destructor: size is kept and a full ring destroys nothing"
  },
  {
   "property": "C40",
   "status": "partial",
   "theorems": [
    "C40_insert_range_partial",
    "C40_insert_wrapped_refuted",
    "C40_insert_overwrite_refuted",
    "C40_insert_growth_refuted",
    "C40_insert_begin_refuted"
   ],
   "note": "claim is false of the code whenever the tail or its destination wraps, on growth, and for the returned position at begin"
  },
  {
   "property": "C41",
   "status": "partial",
   "theorems": [
    "C41_fdeq_copy_partial",
    "C41_fdeq_copy_failure_refuted",
    "C41_fpq_copy_partial",
    "C41_fpq_copy_failure_refuted",
    "C41_fhm_copy_partial",
    "C41_fhm_larger_destination_refuted",
    "C41_fhm_failure_refuted",
    "C41_frm_copy_partial",
    "C41_frm_copy_too_small",
    "C41_frm_copy_failure_refuted",
    "C41_fom_copy_partial",
    "C41_fom_copy_failure_refuted"
   ],
   "note": "deque, priority queue and ordered maps: success half proved; hash map: proved unless the destination is larger, false then; failure half false of the code"
  },
  {
   "property": "C12",
   "status": "proved",
   "theorems": [
    "C12_multiset",
    "C12_trace_complete",
    "C12_push_room"
   ],
   "note": "history refinement of a multiset, all allocation outcomes; handles not designating a stored element are excluded, as documented"
  },
  {
   "property": "C13",
   "status": "proved",
   "theorems": [
    "C13_after_any_history",
    "C13_front_extremal",
    "C13_validate",
    "C12_multiset"
   ],
   "note": "every reachable state is a heap (C12_multiset); front and validate on every heap"
  },
  {
   "property": "C14",
   "status": "proved",
   "theorems": [
    "C14_heapify_drain_sorts",
    "C14_heapify_succeeds",
    "C14_in_place"
   ],
   "note": "all arrays, orders and ties"
  },
  {
   "property": "C15",
   "status": "proved",
   "theorems": [
    "C15_push_reference",
    "C15_update_reference"
   ],
   "note": "all heaps"
  },
  {
   "property": "C42",
   "status": "partial",
   "theorems": [
    "C42_emplace_partial",
    "C42_emplace_full_refuted"
   ],
   "note": "claim is false of the code when memory is refused after the element slot was reserved; equal to push otherwise"
  },
  {
   "property": "C39",
   "status": "partial",
   "theorems": [
    "C39_fdeq_clear_and_free_refuted",
    "C39_fdeq_clear_and_free_partial",
    "C39_fpq_clear_and_free_refuted",
    "C39_fpq_clear_and_free_partial",
    "C39_fpq_clear",
    "C39_fhm_clear_and_free_plain",
    "C39_fhm_clear_and_free_destructor_partial",
    "C39_fhm_size_refuted",
    "C39_frm_clear_and_free_refuted",
    "C39_frm_clear_and_free_partial",
    "C39_fom_clear_and_free_refuted",
    "C39_fom_clear_and_free_partial"
   ],
   "note": "claim is false of the code: deque and hash map with a destructor, priority queue and ordered maps whenever nonempty"
  },
  {
   "property": "C16",
   "status": "proved",
   "theorems": [
    "C16_map_history",
    "C16_spec_put",
    "C16_spec_del"
   ],
   "note": "history refinement of an association list, any hash function and key equivalence, both slot mappings; the four calls that give up on a full table are specified as such (C19)"
  },
  {
   "property": "C17",
   "status": "proved",
   "theorems": [
    "C17_growth_keeps_entries",
    "C17_growth_succeeds"
   ],
   "note": "all reachable tables, all allocation outcomes"
  },
  {
   "property": "C18",
   "status": "partial",
   "theorems": [
    "C18_probe_terminates_partial",
    "C18_small_capacity_refuted",
    "C18_small_growing_refuted",
    "C18_one_slot_size_refuted",
    "C18_raw_memory_refuted"
   ],
   "note": "claim is false of the code for capacities 1 and 3 to 5 and for memory that was never written; proved for no memory and capacities from six"
  },
  {
   "property": "C19",
   "status": "partial",
   "theorems": [
    "C19_entry_operations_partial",
    "C19_full_table_refuted"
   ],
   "note": "claim is false of the code on a fixed table at its load limit; proved below it"
  },
  {
   "property": "C20",
   "status": "partial",
   "theorems": [
    "C20_clear_partial",
    "C20_destructor_partial",
    "C20_clear_refuted",
    "C20_clear_destructor_refuted"
   ],
   "note": "claim is false of the code: stale keys are still found after clear, and clear with a destructor clears nothing; the partial theorems give what holds"
  },
  {
   "property": "C21",
   "status": "proved",
   "theorems": [
    "C21_iteration"
   ],
   "note": "all reachable tables"
  },
  {
   "property": "C22",
   "status": "proved",
   "theorems": [
    "C22_list_history",
    "C22_valid"
   ],
   "note": "any number of lists, with and without allocation, all calls mixed"
  },
  {
   "property": "C23",
   "status": "proved",
   "theorems": [
    "C23_splice",
    "C23_splice_range",
    "C23_nothing_lost"
   ],
   "note": "position: directly after pos (see C43 for the documented side)"
  },
  {
   "property": "C43",
   "status": "partial",
   "theorems": [
    "C43_range_removal_partial",
    "C43_no_range",
    "C43_range_end_refuted",
    "C43_splice_side_refuted"
   ],
   "note": "claim is false of the code: the end is included and splices go after the position; the partial theorem gives the range that is removed"
  },
  {
   "property": "C44",
   "status": "partial",
   "theorems": [
    "C44_sll_clear",
    "C44_dll_clear",
    "C44_pq_clear",
    "C44_om_clear",
    "C44_rom_clear",
    "C44_omm_clear",
    "C29_clear_forever_refuted"
   ],
   "note": "claim is false of the code for a priority queue whose links the fault of C29 has broken: clear never ends; proved for every container after every history of the calls its other theorems permit"
  },
  {
   "property": "C24",
   "status": "partial",
   "theorems": [
    "C24_history_partial",
    "C24_keeps_front_partial",
    "C24_pop_front_push_back_refuted",
    "C24_pop_front_backward_refuted",
    "C24_pop_front_freed_refuted",
    "C24_pop_front_erase_refuted",
    "C24_clear_push_back_refuted"
   ],
   "note": "claim is false of the code after pop_front or clear; proved for all histories without them and, with them, for the calls that do not use the outdated link"
  },
  {
   "property": "C25",
   "status": "partial",
   "theorems": [
    "C25_erase_partial",
    "C25_extract_partial",
    "C25_range_removal_partial",
    "C25_successor_refuted"
   ],
   "note": "claim is false of the code: erase returns the erased element; that exactly the element is removed is proved, and extract and the range removals return the successor"
  },
  {
   "property": "C26",
   "status": "partial",
   "theorems": [
    "C26_splice",
    "C26_splice_range_partial",
    "C26_splice_range_refuted",
    "C26_nothing_lost"
   ],
   "note": "splice proved; splice_range proved without assertions or into a long enough list, a debug build aborts otherwise"
  },
  {
   "property": "C27",
   "status": "partial",
   "theorems": [
    "C27_history_partial",
    "C27_alloc_push_refuted",
    "C27_alloc_push_offset_refuted",
    "C27_emplace_refused_refuted",
    "C27_erase_twice_refuted"
   ],
   "note": "claim is false of the code for push on an allocating queue; proved for every interactive program of the other calls, with and without allocator"
  },
  {
   "property": "C28",
   "status": "partial",
   "theorems": [
    "C28_front_partial"
   ],
   "note": "front and sorted drain proved for all programs permitted in C27, validate for those without priority changes; partial because C27 is"
  },
  {
   "property": "C29",
   "status": "partial",
   "theorems": [
    "C29_history_partial",
    "C29_lost_refuted",
    "C29_clear_forever_refuted",
    "C29_validate_refuted"
   ],
   "note": "claim is false of the code: repeated changes lose elements; proved when increase is not used on an element that is at the front because of a change"
  },
  {
   "property": "C30",
   "status": "partial",
   "theorems": [
    "C30_history_partial",
    "C30_present_or_absent",
    "C30_macro_status_refuted",
    "C30_contains_empty_refuted"
   ],
   "note": "claim is false of the code: contains on an empty map reads the sentinel's memory, and the lazy macros report an insert error on success; proved for every history with these two respects excepted"
  },
  {
   "property": "C31",
   "status": "proved",
   "theorems": [
    "C31_walk",
    "C31_range",
    "C31_rrange"
   ],
   "note": "for every history, with and without allocator"
  },
  {
   "property": "C33",
   "status": "partial",
   "theorems": [
    "C33_history_partial",
    "C33_present_or_absent",
    "C33_macro_status_refuted"
   ],
   "note": "claim is false of the code: the lazy macros report an insert error on success; proved for every history with this respect excepted"
  },
  {
   "property": "C34",
   "status": "proved",
   "theorems": [
    "C34_depth",
    "C34_search",
    "C34_loops",
    "C34_budget"
   ],
   "note": "depth of every node, comparisons of every search, iterations of the loops of insertion and removal"
  },
  {
   "property": "C35",
   "status": "proved",
   "theorems": [
    "C35_walk",
    "C35_range",
    "C35_rrange"
   ],
   "note": "for every history, with and without allocator"
  },
  {
   "property": "C36",
   "status": "partial",
   "theorems": [
    "C36_history_partial",
    "C36_present_or_absent",
    "C36_other_keys",
    "C36_refused",
    "C36_relocated_parity",
    "C36_depth",
    "C36_search",
    "C36_loops",
    "C36_walk",
    "C36_range",
    "C36_rrange",
    "C36_insert_old_refuted",
    "C36_clear_unused_refuted"
   ],
   "note": "claim is false of the code: insert over an existing key unwraps to the new value, and clearing a map that was never used fails or leaves an invalid map; proved for every history with these two respects excepted, balance included"
  },
  {
   "property": "C32",
   "status": "partial",
   "theorems": [
    "C32_history_partial",
    "C32_present_or_absent",
    "C32_other_keys",
    "C32_refused",
    "C32_loops",
    "C32_walk",
    "C32_range",
    "C32_rrange",
    "C32_insert_old_refuted",
    "C32_remove_handle_refuted",
    "C32_contains_empty_refuted",
    "C32_clear_unused_refuted"
   ],
   "note": "claim is false of the code: insert over an existing key unwraps to the new value, remove does not write the user's struct, contains on an empty map reads slot 0, clear with a destructor on an unused map destroys unwritten slots; proved for every history with these respects excepted"
  },
  {
   "property": "C37",
   "status": "partial",
   "theorems": [
    "C37_history_partial",
    "C37_present_or_absent",
    "C37_walk",
    "C37_range",
    "C37_loops",
    "C37_not_copied_refuted",
    "C37_macro_status_refuted",
    "C37_contains_empty_refuted"
   ],
   "note": "claim is false of the code with an allocator: try_insert, insert_or_assign, or_insert and insert_entry link the user's struct instead of a copy, and it is freed later; contains on an empty map reads the sentinel's memory; the lazy macros report an insert error on success; proved for every history with these respects excepted"
  },
  {
   "property": "C38",
   "status": "partial",
   "theorems": [
    "C38_drain_partial",
    "C38_end_partial",
    "C38_end_empty_refuted",
    "C38_pop_min_refuted"
   ],
   "note": "claim is false of the code: max and min of an empty map give the sentinel's address, and pop_min frees a wrong address if the node is not the first field; proved otherwise"
  },
  {
   "property": "C45",
   "status": "partial",
   "theorems": [
    "C45_om_validate",
    "C45_om_usable",
    "C45_om_null_parent_refuted",
    "C45_rom_validate_partial",
    "C45_rom_balance_refuted",
    "C45_fom_validate_partial",
    "C45_fom_usable_partial",
    "C45_fom_lost_root_refuted",
    "C45_fom_slots_refuted",
    "C45_frm_validate_partial",
    "C45_frm_lost_root_refuted",
    "C45_frm_balance_refuted",
    "C45_omm_usable_partial",
    "C45_omm_ring_key_refuted",
    "C45_omm_ring_loop_refuted"
   ],
   "note": "proved in full for the ordered map when parent links are not NULL (false otherwise: they are dereferenced); false of the code in that the WAVL maps do not check balance, the flat maps do not notice a lost root or links to unused slots, and the multimap does not check its rings; proved with these respects excepted"
  },
  {
   "property": "C46",
   "status": "partial",
   "theorems": [
    "C46_decides",
    "C46_usable_partial",
    "C46_full_turn_refuted",
    "C46_swap_slot_refuted",
    "C46_key_refuted",
    "C46_duplicate_refuted",
    "C46_load_refuted"
   ],
   "note": "claim is false of the code: validate does not notice an element a full turn from its home, an element in a swap slot, a key changed in place, a duplicate key, or a full table; proved with these respects excepted"
  },
  {
   "property": "C47",
   "status": "partial",
   "theorems": [
    "C47_sll_decides",
    "C47_sll_usable",
    "C47_sll_crossed_refuted",
    "C47_dll_decides",
    "C47_dll_forward",
    "C47_dll_usable_partial",
    "C47_dll_back_refuted",
    "C47_fdeq_decides",
    "C47_fdeq_usable_partial",
    "C47_fdeq_empty_refuted",
    "C47_fpq_usable_partial",
    "C47_fpq_full_refuted",
    "C47_pq_front",
    "C47_pq_in_place_partial",
    "C47_pq_parent_refuted",
    "C47_pq_size_refuted",
    "C47_pq_loop_refuted"
   ],
   "note": "proved in full for the singly linked list; false of the code in that the doubly linked list does not check back links, an empty deque passes with its front anywhere, a flat priority queue passes without its spare slot, and the priority queue checks only the youngest child of each ring, may count elements twice and may never end; proved with these respects excepted"
  },
  {
   "property": "C48",
   "status": "proved",
   "theorems": [
    "C48_same_code",
    "C48_amortized",
    "C48_every_sequence",
    "C48_no_other_loop",
    "C48_search_again"
   ],
   "note": ""
  },
  {
   "property": "C49",
   "status": "partial",
   "theorems": [
    "C49_whole_walk",
    "C49_begin_linear_partial",
    "C49_next_linear_partial",
    "C49_begin_refuted",
    "C49_next_refuted",
    "C49_range_refuted"
   ],
   "note": "claim is false of the code: begin and rbegin do not splay, so repeated calls cost N links each; single calls of next and rnext, and ranges, cost up to N links too; proved: two links per element over a whole walk, and N links at most in each call"
  },
  {
   "property": "C50",
   "status": "proved",
   "theorems": [
    "C50_same_code",
    "C50_history",
    "C50_any_memory"
   ],
   "note": "increase and decrease are update in the code"
  },
  {
   "property": "C51",
   "status": "proved",
   "theorems": [
    "C51_same_code",
    "C51_amortized",
    "C51_logged_is_trace",
    "C51_constant",
    "C51_constant_change"
   ],
   "note": "a single pop may make as many comparisons as the front has children; the bound is on sums"
  },
  {
   "property": "C52",
   "status": "partial",
   "theorems": [
    "C52_rom_same_code",
    "C52_frm_same_code",
    "C52_rom_search",
    "C52_frm_search",
    "C52_rom_begin",
    "C52_frm_begin",
    "C52_rom_range",
    "C52_frm_range",
    "C52_rom_walk",
    "C52_frm_walk",
    "C52_rom_next_partial",
    "C52_frm_next_partial",
    "C52_rom_next_refuted",
    "C52_frm_next_refuted"
   ],
   "note": "claim is false of the code in that next and rnext are not O(1): from the root of a map of N elements they follow about lg N / 2 links or more; proved with 2 lg(n+1) links for a single step"
  },
  {
   "property": "C53",
   "status": "proved",
   "theorems": [
    "C53_same_code",
    "C53_amortized",
    "C53_every_sequence",
    "C53_no_other_loop",
    "C53_search_again"
   ],
   "note": "the turns of the splay loop and the links followed are counted; the copying of a resize and the sweep of clear are not"
  },
  {
   "property": "C54",
   "status": "partial",
   "theorems": [
    "C54_whole_walk",
    "C54_begin_linear_partial",
    "C54_next_linear_partial",
    "C54_begin_refuted",
    "C54_next_refuted",
    "C54_range_refuted"
   ],
   "note": "claim is false of the code: begin and rbegin do not splay, so repeated calls cost N links each; single calls of next and rnext, and ranges, cost up to N links too; proved: two links per element over a whole walk, and N links at most in each call"
  },
  {
   "property": "C55",
   "status": "proved",
   "theorems": [
    "C55_same_code",
    "C55_amortized",
    "C55_every_sequence",
    "C55_no_other_loop"
   ],
   "note": "the turns of the splay loop and the links followed are counted; validate is not"
  },
  {
   "property": "C56",
   "status": "partial",
   "theorems": [
    "C56_duplicates",
    "C56_pop_min",
    "C56_occupied_entry",
    "C56_pop_max_refuted",
    "C56_extract_refuted",
    "C56_remove_entry_refuted",
    "C56_vacant_entry_refuted"
   ],
   "note": "claim is false of the code: pop_max of the last element with its key after max, extract, remove_entry, and insertion through a vacant entry splay again and can take N turns; proved: one turn for pops, searches and insertions of the key while one of its elements remains, for pop_min after min, and for insertion through an occupied entry"
  },
  {
   "property": "C57",
   "status": "partial",
   "theorems": [
    "C57_covered_partial",
    "C57_inside",
    "C57_buffer",
    "C57_deque",
    "C57_heap",
    "C57_hash",
    "C57_maps",
    "C57_alloc_refuted"
   ],
   "note": "claim is false of the code: ccc_buf_alloc, also called for ccc_fpq_alloc, does not notice when element size times the capacity given by the user is no size_t, reports success and hands out slots outside the memory; proved for all histories in which the bytes of such capacities are a size_t, with agreement of the natural number models with the 64 bit sizes"
  },
  {
   "property": "C58",
   "status": "proved",
   "theorems": [
    "C58_same_calls",
    "C58_history",
    "C58_any_history",
    "C58_call"
   ],
   "note": "histories in the scope of C06 and C07; the range inserted in the middle (C40) is not included"
  },
  {
   "property": "C59",
   "status": "partial",
   "theorems": [
    "C59_same_calls",
    "C59_history_partial",
    "C59_clear_refuted"
   ],
   "note": "claim is false of the code: clear without a destructor leaves the table to be cleared by the next call that asks for an entry, so insertions after clear take the whole capacity each; proved for all histories without clear. Probes are not counted"
  },
  {
   "property": "C60",
   "status": "proved",
   "theorems": [
    "C60_same_buffer",
    "C60_same_heap",
    "C60_same_fom",
    "C60_same_frm",
    "C60_buffer",
    "C60_buffer_call",
    "C60_heap",
    "C60_fom",
    "C60_frm"
   ],
   "note": "histories in the scope of C01, C12, C32 and C36"
  },
  {
   "property": "C61",
   "status": "partial",
   "theorems": [
    "C61_find",
    "C61_contains",
    "C61_match",
    "C61_rfind_partial",
    "C61_rmatch_partial",
    "C61_rfind_refuted",
    "C61_contains_empty"
   ],
   "note": "sv_find, sv_contains and sv_match in full. From right to left the claim is false for needles of four bytes: a byte from 128 on is shifted into the sign bit of an int; proved for all other needles, and for four bytes in a hay below 128"
  },
  {
   "property": "C62",
   "status": "partial",
   "theorems": [
    "C62_cmp",
    "C62_strcmp",
    "C62_order",
    "C62_starts_with",
    "C62_ends_with",
    "C62_strncmp_partial",
    "C62_strncmp_refuted",
    "C62_strncmp_beyond_refuted"
   ],
   "note": "all but sv_strncmp in full. The claim is false of sv_strncmp for a view longer than n that agrees in n bytes, and for equal strings shorter than n; proved for all other arguments"
  },
  {
   "property": "C63",
   "status": "partial",
   "theorems": [
    "C63_first_not_of",
    "C63_first_of_partial",
    "C63_first_of_refuted",
    "C63_last_of_partial",
    "C63_last_of_refuted",
    "C63_last_not_of_partial",
    "C63_last_not_of_refuted"
   ],
   "note": "sv_find_first_not_of in full. The other three are false of the code in the cases refuted, and proved in all others"
  },
  {
   "property": "C64",
   "status": "partial",
   "theorems": [
    "C64_construct",
    "C64_substr",
    "C64_remove_prefix",
    "C64_remove_suffix_partial",
    "C64_remove_suffix_refuted",
    "C64_bytes",
    "C64_fill_partial",
    "C64_fill_refuted"
   ],
   "note": "false of the code: sv_fill with an empty view leaves the destination as it was, and sv_remove_suffix of everything is not at the end of the view"
  },
  {
   "property": "C65",
   "status": "partial",
   "theorems": [
    "C65_tokens",
    "C65_pieces_unique",
    "C65_rtokens_partial",
    "C65_rpieces_unique",
    "C65_rbegin_only",
    "C65_rtokens_outside_refuted",
    "C65_rtokens_delimiter_refuted",
    "C65_null_delim_refuted"
   ],
   "note": "from left to right in full. From right to left false of the code for sources that begin with delimiters (a token outside of the source, or a delimiter as a token); proved for all sources that are not, and do not begin before another delimiter with, delimiters and the end of one, within the scope of C61; for sources of delimiters only the last token is always the byte after the source"
  },
  {
   "property": "C66",
   "status": "proved",
   "theorems": [
    "C66_find",
    "C66_contains",
    "C66_match",
    "C66_rfind",
    "C66_rmatch"
   ],
   "note": "the bytes read are counted in SvCostModel.v, whose functions are proved to answer as those of SvModel.v"
  },
  {
   "property": "C67",
   "status": "proved",
   "theorems": [
    "C67_tokens"
   ],
   "note": "the bytes read are counted as for C66"
  },
  {
   "property": "C68",
   "status": "proved",
   "theorems": [
    "C68_forwards",
    "C68_backwards",
    "C68_pos",
    "C68_print",
    "C68_next_null",
    "C68_rbegin_empty",
    "C68_null",
    "C68_sizes",
    "C68_strsize",
    "C68_minlen",
    "C68_extend",
    "C68_swap",
    "C68_swap_null",
    "C68_delim",
    "C68_delim_empty"
   ],
   "note": "the pointer one before the first byte, which sv_rend makes, is not counted as an error; files are assumed to take all bytes"
  },
  {
   "property": "C69",
   "status": "partial",
   "theorems": [
    "C69_whole_walk",
    "C69_duplicates",
    "C69_begin_linear_partial",
    "C69_next_linear_partial",
    "C69_begin_refuted",
    "C69_next_refuted"
   ],
   "note": "claim is false of the code: begin does not splay, so repeated calls cost N links each, and so do single calls of rnext; proved: two links per element over a whole walk, none to a duplicate, and N links at most in each call"
  },
  {
   "property": "C70",
   "status": "partial",
   "theorems": [
    "C70_begin_refuted",
    "C70_next_refuted",
    "C70_range_refuted",
    "C70_ends_partial",
    "C70_steps_partial"
   ],
   "note": "claim is false of the code: begin and next go down from the oldest maximum, rbegin and rnext up from the oldest minimum, and equal_range goes down too; what they do instead is proved for every history (see also C37_walk and C37_range)"
  },
  {
   "property": "C71",
   "status": "partial",
   "theorems": [
    "C71_marks",
    "C71_null",
    "C71_input_error_refuted",
    "C71_unwrap_refuted",
    "C71_results",
    "C71_messages_partial",
    "C71_combined"
   ],
   "note": "claim is false of the code in three points: input_error says no for NULL, whose status is an input error; a vacant entry is unwrapped to the pointer it holds; every status of two flags or more has the message of an unknown combination. The rest is proved for all sets of flags and all results"
  }
 ]
}