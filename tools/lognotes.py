# what was tightened because a wrong program survived, and remarks
TIGHTENED = {
 's22': ['C44_every_function_in_its_slot: duplicate definition of NewPluginFuncs in the proofs removed, so that the theorem speaks of the one of the model'],
 't21': ['C46_registered_twice_panics (new)'],
 't30': ['C66_absolute_path (new)'],
 't33': ['C51_package_name: states the name with an independent word_name'],
 't111': ['C64_success_means_built: via the exit code'],
 't112': ['C64_early_interrupt_is_not_noticed (new; the edit repairs the code, the finding is now a theorem)'],
 't74': ['C62_exit_status (new)'],
 'm65': ['C68_when_and_note, C68_when_is_the_time_of_creation (new property)'],
 'u01': ['C35_same_name_means, C35_case_insensitive_letters (new): "up to case" spelt out letter by letter'],
 'u02': ['C35_same_name_means, C28_lower_case_means, C46_prefix_means (new)'],
 'u50': ['C24_second_means (new): a second is 10^9 nanoseconds'],
 'u33': ['C29_functions_are_own_symbols: states the function of a value without the helper of the model'],
 'u60': ['C34_among_other_goroutines (new)'],
 'u121': ['C29_symbols_mean (new)'],
 'u22': ['a lemma not used any more, which hid the others, removed; C54 and 90 others fail now'],
 'u94': ['C48_space_means (new)'],
 'y08': ['C64_exit_status (new)'],
 'u03': ['C10_dependency_field_means (new)'],
}
NOTE = {
 'u25': 'harmless for C38: sixteen different letters are used either way',
 'u41': 'unreachable code (every key of the order is in the map)',
 'u83': 'harmless: no caller passes an empty element, so no claim changes',

 't63': 'only removes schedules; every claim over all schedules stays true',
 's03': 'C41_last_option_counts is false of the edited program',
 's26': 'C41_last_option_counts is false of the edited program',
}
