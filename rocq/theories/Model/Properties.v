(** RESTART_PROPERTIES of fv3gfs/util/_properties.py 13-450, transcribed by tools/table.py.  Entries other than dims, restart_name
    and units (descriptions) are left out; they are not read by the code. *)
From Verif.Base Require Import Base.
From Verif.Model Require Import Consts.
Local Open Scope string_scope.

Record property := mkProp { p_dims : list string; p_restart : string; p_units : string }.
Definition RESTART_PROPERTIES : dict property := [
  ("accumulated_x_courant_number", mkProp [Z_DIM; Y_DIM; X_DIM] "cx" "");
  ("accumulated_x_mass_flux", mkProp [Z_DIM; Y_DIM; X_INTERFACE_DIM] "mfx" "unknown");
  ("accumulated_y_courant_number", mkProp [Z_DIM; Y_DIM; X_DIM] "cy" "unknown");
  ("accumulated_y_mass_flux", mkProp [Z_DIM; Y_INTERFACE_DIM; X_DIM] "mfy" "unknown");
  ("air_temperature", mkProp [Z_DIM; Y_DIM; X_DIM] "T" "degK");
  ("air_temperature_after_physics", mkProp [Z_DIM; Y_DIM; X_DIM] "gt0" "K");
  ("air_temperature_at_2m", mkProp [Y_DIM; X_DIM] "t2m" "degK");
  ("area_of_grid_cell", mkProp [Y_DIM; X_DIM] "area" "m^2");
  ("atmosphere_hybrid_a_coordinate", mkProp [Z_INTERFACE_DIM] "ak" "Pa");
  ("atmosphere_hybrid_b_coordinate", mkProp [Z_INTERFACE_DIM] "bk" "");
  ("canopy_water", mkProp [Y_DIM; X_DIM] "canopy" "unknown");
  ("clear_sky_downward_longwave_flux_at_surface", mkProp [Y_DIM; X_DIM] "sfcflw" "W/m^2");
  ("clear_sky_downward_shortwave_flux_at_surface", mkProp [Y_DIM; X_DIM] "sfcfsw" "W/m^2");
  ("clear_sky_upward_longwave_flux_at_surface", mkProp [Y_DIM; X_DIM] "sfcflw" "W/m^2");
  ("clear_sky_upward_longwave_flux_at_top_of_atmosphere", mkProp [Y_DIM; X_DIM] "topflw" "W/m^2");
  ("clear_sky_upward_shortwave_flux_at_surface", mkProp [Y_DIM; X_DIM] "sfcfsw" "W/m^2");
  ("clear_sky_upward_shortwave_flux_at_top_of_atmosphere", mkProp [Y_DIM; X_DIM] "topfsw" "W/m^2");
  ("convective_cloud_bottom_pressure", mkProp [Y_DIM; X_DIM] "cvb" "Pa");
  ("convective_cloud_fraction", mkProp [Y_DIM; X_DIM] "cv" "");
  ("convective_cloud_top_pressure", mkProp [Y_DIM; X_DIM] "cvt" "Pa");
  ("deep_soil_temperature", mkProp [Y_DIM; X_DIM] "tg3" "degK");
  ("dissipation_estimate_from_heat_source", mkProp [Z_DIM; Y_DIM; X_DIM] "diss_est" "unknown");
  ("eastward_wind", mkProp [Z_DIM; Y_DIM; X_DIM] "ua" "m/s");
  ("eastward_wind_after_physics", mkProp [Z_DIM; Y_DIM; X_DIM] "gu0" "m/s");
  ("eastward_wind_at_surface", mkProp [Y_DIM; X_DIM] "u_srf" "m/s");
  ("fh_parameter", mkProp [Y_DIM; X_DIM] "ffhh" "unknown");
  ("fm_at_10m", mkProp [Y_DIM; X_DIM] "f10m" "unknown");
  ("fm_parameter", mkProp [Y_DIM; X_DIM] "ffmm" "unknown");
  ("fractional_coverage_with_strong_cosz_dependency", mkProp [Y_DIM; X_DIM] "facsf" "");
  ("fractional_coverage_with_weak_cosz_dependency", mkProp [Y_DIM; X_DIM] "facwf" "");
  ("friction_velocity", mkProp [Y_DIM; X_DIM] "uustar" "m/s");
  ("ice_fraction_over_open_water", mkProp [Y_DIM; X_DIM] "fice" "");
  ("interface_pressure", mkProp [Y_DIM; Z_INTERFACE_DIM; X_DIM] "pe" "Pa");
  ("interface_pressure_raised_to_power_of_kappa", mkProp [Z_INTERFACE_DIM; Y_DIM; X_DIM] "pk" "unknown");
  ("land_sea_mask", mkProp [Y_DIM; X_DIM] "slmsk" "");
  ("latent_heat_flux", mkProp [Y_DIM; X_DIM] "dqsfci" "W/m^2");
  ("latitude", mkProp [Y_DIM; X_DIM] "xlat" "radians");
  ("layer_mean_pressure_raised_to_power_of_kappa", mkProp [Z_DIM; Y_DIM; X_DIM] "pkz" "unknown");
  ("liquid_soil_moisture", mkProp [Z_SOIL_DIM; Y_DIM; X_DIM] "slc" "unknown");
  ("logarithm_of_interface_pressure", mkProp [Y_DIM; Z_INTERFACE_DIM; X_DIM] "peln" "ln(Pa)");
  ("longitude", mkProp [Y_DIM; X_DIM] "xlon" "radians");
  ("maximum_fractional_coverage_of_green_vegetation", mkProp [Y_DIM; X_DIM] "shdmax" "");
  ("maximum_snow_albedo_in_fraction", mkProp [Y_DIM; X_DIM] "snoalb" "");
  ("mean_cos_zenith_angle", mkProp [Y_DIM; X_DIM] "coszen" "");
  ("mean_near_infrared_albedo_with_strong_cosz_dependency", mkProp [Y_DIM; X_DIM] "alnsf" "");
  ("mean_near_infrared_albedo_with_weak_cosz_dependency", mkProp [Y_DIM; X_DIM] "alnwf" "");
  ("mean_visible_albedo_with_strong_cosz_dependency", mkProp [Y_DIM; X_DIM] "alvsf" "");
  ("mean_visible_albedo_with_weak_cosz_dependency", mkProp [Y_DIM; X_DIM] "alvwf" "");
  ("minimum_fractional_coverage_of_green_vegetation", mkProp [Y_DIM; X_DIM] "shdmin" "");
  ("northward_wind", mkProp [Z_DIM; Y_DIM; X_DIM] "va" "m/s");
  ("northward_wind_after_physics", mkProp [Z_DIM; Y_DIM; X_DIM] "gv0" "m/s");
  ("northward_wind_at_surface", mkProp [Y_DIM; X_DIM] "v_srf" "m/s");
  ("pressure_thickness_of_atmospheric_layer", mkProp [Z_DIM; Y_DIM; X_DIM] "delp" "Pa");
  ("sea_ice_thickness", mkProp [Y_DIM; X_DIM] "hice" "unknown");
  ("sensible_heat_flux", mkProp [Y_DIM; X_DIM] "dtsfci" "W/m^2");
  ("snow_cover_in_fraction", mkProp [Y_DIM; X_DIM] "sncovr" "");
  ("snow_depth_water_equivalent", mkProp [Y_DIM; X_DIM] "snwdph" "mm");
  ("snow_rain_flag", mkProp [Y_DIM; X_DIM] "srflag" "");
  ("soil_temperature", mkProp [Z_SOIL_DIM; Y_DIM; X_DIM] "stc" "degK");
  ("soil_type", mkProp [Y_DIM; X_DIM] "stype" "");
  ("specific_humidity_at_2m", mkProp [Y_DIM; X_DIM] "q2m" "kg/kg");
  ("surface_geopotential", mkProp [Y_DIM; X_DIM] "phis" "m^2 s^-2");
  ("surface_pressure", mkProp [Y_DIM; X_DIM] "ps" "Pa");
  ("surface_roughness", mkProp [Y_DIM; X_DIM] "zorl" "cm");
  ("surface_slope_type", mkProp [Y_DIM; X_DIM] "slope" "");
  ("surface_temperature", mkProp [Y_DIM; X_DIM] "tsea" "degK");
  ("surface_temperature_over_ice_fraction", mkProp [Y_DIM; X_DIM] "tisfc" "degK");
  ("total_condensate_mixing_ratio", mkProp [Z_DIM; Y_DIM; X_DIM] "q_con" "kg/kg");
  ("total_precipitation", mkProp [Y_DIM; X_DIM] "tprcp" "m");
  ("total_sky_downward_longwave_flux_at_surface", mkProp [Y_DIM; X_DIM] "sfcflw" "W/m^2");
  ("total_sky_downward_shortwave_flux_at_surface", mkProp [Y_DIM; X_DIM] "sfcfsw" "W/m^2");
  ("total_sky_downward_shortwave_flux_at_top_of_atmosphere", mkProp [Y_DIM; X_DIM] "topfsw" "W/m^2");
  ("total_sky_upward_longwave_flux_at_surface", mkProp [Y_DIM; X_DIM] "sfcflw" "W/m^2");
  ("total_sky_upward_longwave_flux_at_top_of_atmosphere", mkProp [Y_DIM; X_DIM] "topflw" "W/m^2");
  ("total_sky_upward_shortwave_flux_at_surface", mkProp [Y_DIM; X_DIM] "sfcfsw" "W/m^2");
  ("total_sky_upward_shortwave_flux_at_top_of_atmosphere", mkProp [Y_DIM; X_DIM] "topfsw" "W/m^2");
  ("total_soil_moisture", mkProp [Z_SOIL_DIM; Y_DIM; X_DIM] "smc" "unknown");
  ("vegetation_fraction", mkProp [Y_DIM; X_DIM] "vfrac" "");
  ("vegetation_type", mkProp [Y_DIM; X_DIM] "vtype" "");
  ("vertical_pressure_velocity", mkProp [Z_DIM; Y_DIM; X_DIM] "omga" "Pa/s");
  ("vertical_thickness_of_atmospheric_layer", mkProp [Z_DIM; Y_DIM; X_DIM] "DZ" "m");
  ("vertical_wind", mkProp [Z_DIM; Y_DIM; X_DIM] "W" "m/s");
  ("water_equivalent_of_accumulated_snow_depth", mkProp [Y_DIM; X_DIM] "sheleg" "kg/m^2");
  ("x_wind", mkProp [Z_DIM; Y_INTERFACE_DIM; X_DIM] "u" "m/s");
  ("x_wind_on_c_grid", mkProp [Z_DIM; Y_DIM; X_INTERFACE_DIM] "uc" "m/s");
  ("y_wind", mkProp [Z_DIM; Y_DIM; X_INTERFACE_DIM] "v" "m/s");
  ("y_wind_on_c_grid", mkProp [Z_DIM; Y_INTERFACE_DIM; X_DIM] "vc" "m/s")].
