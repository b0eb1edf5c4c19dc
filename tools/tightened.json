{"m05": ["C10_written_operators (added)"], "m15": ["C05_comparison_sides (added)"], "m37": ["C41_equality (added)"], "n06": ["C55_objectives_affine", "C55_objectives_real_partial"], "n07": ["C55_objectives_affine", "C55_objectives_real_partial"], "n11": ["C55_port_definition_partial", "C55_port_definition_refused"], "n12": ["C55_variable_bounds"], "p70": ["C62_cluster_files", "C62_accepted", "C65_rows_partial", "C68_study_exactly"], "t48": ["C74_run", "C74_series"], "t51": ["C75_input", "C75_accepted", "C75_configured"], "t54": ["C75_configured"]}