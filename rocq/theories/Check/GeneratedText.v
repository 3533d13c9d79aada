(** The files of src/gen, copied by a script, are what the generator gives (Model/Codegen.v,
    Model/AssertImpl.v) written out, behind the header and formatted (Model/CodegenFile.v).  The layout
    by [prettyplease] is left out: blanks and line ends do not count in the comparison of the contents. *)
From Verif.Model Require Import Base Str Types Codegen AssertImpl Generated CrateTypes CodegenFile.

(** src/gen/de.rs *)
Definition de_text : str := B "// SPDX-License-Identifier: Apache-2.0 OR MIT
// This file is @generated by cargo-config2-internal-codegen
// (gen_de function at tools/codegen/src/main.rs).
// It is not intended for manual editing.

#![cfg_attr(rustfmt, rustfmt::skip)]
use std::path::Path;
use crate::{error::Result, merge::Merge, value::SetPath};
impl Merge for crate::de::Config {
    fn merge(&mut self, low: Self, force: bool) -> Result<()> {
        self.alias.merge(low.alias, force)?;
        self.build.merge(low.build, force)?;
        self.doc.merge(low.doc, force)?;
        self.env.merge(low.env, force)?;
        self.future_incompat_report.merge(low.future_incompat_report, force)?;
        self.cargo_new.merge(low.cargo_new, force)?;
        self.http.merge(low.http, force)?;
        self.net.merge(low.net, force)?;
        self.registries.merge(low.registries, force)?;
        self.registry.merge(low.registry, force)?;
        self.target.merge(low.target, force)?;
        self.term.merge(low.term, force)?;
        Ok(())
    }
}
impl SetPath for crate::de::Config {
    fn set_path(&mut self, path: &Path) {
        self.alias.set_path(path);
        self.build.set_path(path);
        self.doc.set_path(path);
        self.env.set_path(path);
        self.future_incompat_report.set_path(path);
        self.cargo_new.set_path(path);
        self.http.set_path(path);
        self.net.set_path(path);
        self.registries.set_path(path);
        self.registry.set_path(path);
        self.target.set_path(path);
        self.term.set_path(path);
    }
}
impl Merge for crate::de::BuildConfig {
    fn merge(&mut self, low: Self, force: bool) -> Result<()> {
        self.jobs.merge(low.jobs, force)?;
        self.rustc.merge(low.rustc, force)?;
        self.rustc_wrapper.merge(low.rustc_wrapper, force)?;
        self.rustc_workspace_wrapper.merge(low.rustc_workspace_wrapper, force)?;
        self.rustdoc.merge(low.rustdoc, force)?;
        self.target.merge(low.target, force)?;
        self.target_dir.merge(low.target_dir, force)?;
        self.rustflags.merge(low.rustflags, force)?;
        self.rustdocflags.merge(low.rustdocflags, force)?;
        self.incremental.merge(low.incremental, force)?;
        self.dep_info_basedir.merge(low.dep_info_basedir, force)?;
        Ok(())
    }
}
impl SetPath for crate::de::BuildConfig {
    fn set_path(&mut self, path: &Path) {
        self.jobs.set_path(path);
        self.rustc.set_path(path);
        self.rustc_wrapper.set_path(path);
        self.rustc_workspace_wrapper.set_path(path);
        self.rustdoc.set_path(path);
        self.target.set_path(path);
        self.target_dir.set_path(path);
        self.rustflags.set_path(path);
        self.rustdocflags.set_path(path);
        self.incremental.set_path(path);
        self.dep_info_basedir.set_path(path);
    }
}
impl Merge for crate::de::TargetConfig {
    fn merge(&mut self, low: Self, force: bool) -> Result<()> {
        self.linker.merge(low.linker, force)?;
        self.runner.merge(low.runner, force)?;
        self.rustflags.merge(low.rustflags, force)?;
        self.rustdocflags.merge(low.rustdocflags, force)?;
        Ok(())
    }
}
impl SetPath for crate::de::TargetConfig {
    fn set_path(&mut self, path: &Path) {
        self.linker.set_path(path);
        self.runner.set_path(path);
        self.rustflags.set_path(path);
        self.rustdocflags.set_path(path);
    }
}
impl Merge for crate::de::DocConfig {
    fn merge(&mut self, low: Self, force: bool) -> Result<()> {
        self.browser.merge(low.browser, force)?;
        Ok(())
    }
}
impl SetPath for crate::de::DocConfig {
    fn set_path(&mut self, path: &Path) {
        self.browser.set_path(path);
    }
}
impl SetPath for crate::de::EnvConfigValue {
    fn set_path(&mut self, path: &Path) {
        match self {
            Self::Value(v) => {
                v.set_path(path);
            }
            Self::Table { value, force, relative } => {
                value.set_path(path);
                force.set_path(path);
                relative.set_path(path);
            }
        }
    }
}
impl Merge for crate::de::FutureIncompatReportConfig {
    fn merge(&mut self, low: Self, force: bool) -> Result<()> {
        self.frequency.merge(low.frequency, force)?;
        Ok(())
    }
}
impl SetPath for crate::de::FutureIncompatReportConfig {
    fn set_path(&mut self, path: &Path) {
        self.frequency.set_path(path);
    }
}
impl Merge for crate::de::CargoNewConfig {
    fn merge(&mut self, low: Self, force: bool) -> Result<()> {
        self.vcs.merge(low.vcs, force)?;
        Ok(())
    }
}
impl SetPath for crate::de::CargoNewConfig {
    fn set_path(&mut self, path: &Path) {
        self.vcs.set_path(path);
    }
}
impl Merge for crate::de::HttpConfig {
    fn merge(&mut self, low: Self, force: bool) -> Result<()> {
        self.debug.merge(low.debug, force)?;
        self.proxy.merge(low.proxy, force)?;
        self.timeout.merge(low.timeout, force)?;
        self.cainfo.merge(low.cainfo, force)?;
        self.check_revoke.merge(low.check_revoke, force)?;
        self.low_speed_limit.merge(low.low_speed_limit, force)?;
        self.multiplexing.merge(low.multiplexing, force)?;
        self.user_agent.merge(low.user_agent, force)?;
        Ok(())
    }
}
impl SetPath for crate::de::HttpConfig {
    fn set_path(&mut self, path: &Path) {
        self.debug.set_path(path);
        self.proxy.set_path(path);
        self.timeout.set_path(path);
        self.cainfo.set_path(path);
        self.check_revoke.set_path(path);
        self.low_speed_limit.set_path(path);
        self.multiplexing.set_path(path);
        self.user_agent.set_path(path);
    }
}
impl Merge for crate::de::NetConfig {
    fn merge(&mut self, low: Self, force: bool) -> Result<()> {
        self.retry.merge(low.retry, force)?;
        self.git_fetch_with_cli.merge(low.git_fetch_with_cli, force)?;
        self.offline.merge(low.offline, force)?;
        Ok(())
    }
}
impl SetPath for crate::de::NetConfig {
    fn set_path(&mut self, path: &Path) {
        self.retry.set_path(path);
        self.git_fetch_with_cli.set_path(path);
        self.offline.set_path(path);
    }
}
impl Merge for crate::de::RegistriesConfigValue {
    fn merge(&mut self, low: Self, force: bool) -> Result<()> {
        self.index.merge(low.index, force)?;
        self.token.merge(low.token, force)?;
        self.protocol.merge(low.protocol, force)?;
        Ok(())
    }
}
impl SetPath for crate::de::RegistriesConfigValue {
    fn set_path(&mut self, path: &Path) {
        self.index.set_path(path);
        self.token.set_path(path);
        self.protocol.set_path(path);
    }
}
impl Merge for crate::de::RegistryConfig {
    fn merge(&mut self, low: Self, force: bool) -> Result<()> {
        self.default.merge(low.default, force)?;
        self.token.merge(low.token, force)?;
        Ok(())
    }
}
impl SetPath for crate::de::RegistryConfig {
    fn set_path(&mut self, path: &Path) {
        self.default.set_path(path);
        self.token.set_path(path);
    }
}
impl Merge for crate::de::TermConfig {
    fn merge(&mut self, low: Self, force: bool) -> Result<()> {
        self.quiet.merge(low.quiet, force)?;
        self.verbose.merge(low.verbose, force)?;
        self.color.merge(low.color, force)?;
        self.progress.merge(low.progress, force)?;
        Ok(())
    }
}
impl SetPath for crate::de::TermConfig {
    fn set_path(&mut self, path: &Path) {
        self.quiet.set_path(path);
        self.verbose.set_path(path);
        self.color.set_path(path);
        self.progress.set_path(path);
    }
}
impl Merge for crate::de::TermProgress {
    fn merge(&mut self, low: Self, force: bool) -> Result<()> {
        self.when.merge(low.when, force)?;
        self.width.merge(low.width, force)?;
        Ok(())
    }
}
impl SetPath for crate::de::TermProgress {
    fn set_path(&mut self, path: &Path) {
        self.when.set_path(path);
        self.width.set_path(path);
    }
}
impl SetPath for crate::de::Flags {
    fn set_path(&mut self, path: &Path) {
        self.flags.set_path(path);
    }
}
impl SetPath for crate::de::ConfigRelativePath {
    fn set_path(&mut self, path: &Path) {
        self.0.set_path(path);
    }
}
impl SetPath for crate::de::PathAndArgs {
    fn set_path(&mut self, path: &Path) {
        self.path.set_path(path);
        self.args.set_path(path);
    }
}
impl SetPath for crate::de::StringList {
    fn set_path(&mut self, path: &Path) {
        self.list.set_path(path);
    }
}
impl SetPath for crate::de::StringOrArray {
    fn set_path(&mut self, path: &Path) {
        match self {
            Self::String(v) => {
                v.set_path(path);
            }
            Self::Array(v) => {
                v.set_path(path);
            }
        }
    }
}
".

(** src/gen/is_none.rs *)
Definition is_none_text : str := B "// SPDX-License-Identifier: Apache-2.0 OR MIT
// This file is @generated by cargo-config2-internal-codegen
// (gen_is_none function at tools/codegen/src/main.rs).
// It is not intended for manual editing.

#![cfg_attr(rustfmt, rustfmt::skip)]
impl crate::easy::BuildConfig {
    pub(crate) fn is_none(&self) -> bool {
        self.jobs.is_none() && self.rustc.is_none() && self.rustc_wrapper.is_none()
            && self.rustc_workspace_wrapper.is_none() && self.rustdoc.is_none()
            && self.target.is_none() && self.target_dir.is_none()
            && self.rustflags.is_none() && self.rustdocflags.is_none()
            && self.incremental.is_none() && self.dep_info_basedir.is_none()
    }
}
impl crate::easy::DocConfig {
    pub(crate) fn is_none(&self) -> bool {
        self.browser.is_none()
    }
}
impl crate::easy::FutureIncompatReportConfig {
    pub(crate) fn is_none(&self) -> bool {
        self.frequency.is_none()
    }
}
impl crate::easy::CargoNewConfig {
    pub(crate) fn is_none(&self) -> bool {
        self.vcs.is_none()
    }
}
impl crate::easy::HttpConfig {
    pub(crate) fn is_none(&self) -> bool {
        self.debug.is_none() && self.proxy.is_none() && self.timeout.is_none()
            && self.cainfo.is_none() && self.check_revoke.is_none()
            && self.low_speed_limit.is_none() && self.multiplexing.is_none()
            && self.user_agent.is_none()
    }
}
impl crate::easy::NetConfig {
    pub(crate) fn is_none(&self) -> bool {
        self.retry.is_none() && self.git_fetch_with_cli.is_none()
            && self.offline.is_none()
    }
}
impl crate::easy::RegistryConfig {
    pub(crate) fn is_none(&self) -> bool {
        self.default.is_none() && self.token.is_none()
    }
}
impl crate::easy::TermConfig {
    pub(crate) fn is_none(&self) -> bool {
        self.quiet.is_none() && self.verbose.is_none() && self.color.is_none()
            && self.progress.is_none()
    }
}
impl crate::easy::TermProgressConfig {
    pub(crate) fn is_none(&self) -> bool {
        self.when.is_none() && self.width.is_none()
    }
}
impl crate::de::BuildConfig {
    pub(crate) fn is_none(&self) -> bool {
        self.jobs.is_none() && self.rustc.is_none() && self.rustc_wrapper.is_none()
            && self.rustc_workspace_wrapper.is_none() && self.rustdoc.is_none()
            && self.target.is_none() && self.target_dir.is_none()
            && self.rustflags.is_none() && self.rustdocflags.is_none()
            && self.incremental.is_none() && self.dep_info_basedir.is_none()
    }
}
impl crate::de::DocConfig {
    pub(crate) fn is_none(&self) -> bool {
        self.browser.is_none()
    }
}
impl crate::de::FutureIncompatReportConfig {
    pub(crate) fn is_none(&self) -> bool {
        self.frequency.is_none()
    }
}
impl crate::de::CargoNewConfig {
    pub(crate) fn is_none(&self) -> bool {
        self.vcs.is_none()
    }
}
impl crate::de::HttpConfig {
    pub(crate) fn is_none(&self) -> bool {
        self.debug.is_none() && self.proxy.is_none() && self.timeout.is_none()
            && self.cainfo.is_none() && self.check_revoke.is_none()
            && self.low_speed_limit.is_none() && self.multiplexing.is_none()
            && self.user_agent.is_none()
    }
}
impl crate::de::NetConfig {
    pub(crate) fn is_none(&self) -> bool {
        self.retry.is_none() && self.git_fetch_with_cli.is_none()
            && self.offline.is_none()
    }
}
impl crate::de::RegistryConfig {
    pub(crate) fn is_none(&self) -> bool {
        self.default.is_none() && self.token.is_none()
    }
}
impl crate::de::TermConfig {
    pub(crate) fn is_none(&self) -> bool {
        self.quiet.is_none() && self.verbose.is_none() && self.color.is_none()
            && self.progress.is_none()
    }
}
impl crate::de::TermProgress {
    pub(crate) fn is_none(&self) -> bool {
        self.when.is_none() && self.width.is_none()
    }
}
".

(** src/gen/assert_impl.rs *)
Definition assert_impl_text : str := B "// SPDX-License-Identifier: Apache-2.0 OR MIT
// This file is @generated by cargo-config2-internal-codegen
// (gen_assert_impl function at tools/codegen/src/main.rs).
// It is not intended for manual editing.

#![cfg_attr(rustfmt, rustfmt::skip)]
#![allow(
    dead_code,
    unused_macros,
    clippy::std_instead_of_alloc,
    clippy::std_instead_of_core,
)]
fn assert_send<T: ?Sized + Send>() {}
fn assert_sync<T: ?Sized + Sync>() {}
fn assert_unpin<T: ?Sized + Unpin>() {}
fn assert_unwind_safe<T: ?Sized + std::panic::UnwindSafe>() {}
fn assert_ref_unwind_safe<T: ?Sized + std::panic::RefUnwindSafe>() {}
/// `Send` & `!Sync`
struct NotSync(core::cell::UnsafeCell<()>);
/// `!Send` & `Sync`
struct NotSend(std::sync::MutexGuard<'static, ()>);
/// `!Send` & `!Sync`
struct NotSendSync(*const ());
/// `!Unpin`
struct NotUnpin(core::marker::PhantomPinned);
/// `!UnwindSafe`
struct NotUnwindSafe(&'static mut ());
/// `!RefUnwindSafe`
struct NotRefUnwindSafe(core::cell::UnsafeCell<()>);
macro_rules! assert_not_send {
    ($ty:ty) => {
        static_assertions::assert_not_impl_all!($ty : Send);
    };
}
macro_rules! assert_not_sync {
    ($ty:ty) => {
        static_assertions::assert_not_impl_all!($ty : Sync);
    };
}
macro_rules! assert_not_unpin {
    ($ty:ty) => {
        static_assertions::assert_not_impl_all!($ty : Unpin);
    };
}
macro_rules! assert_not_unwind_safe {
    ($ty:ty) => {
        static_assertions::assert_not_impl_all!($ty : std::panic::UnwindSafe);
    };
}
macro_rules! assert_not_ref_unwind_safe {
    ($ty:ty) => {
        static_assertions::assert_not_impl_all!($ty : std::panic::RefUnwindSafe);
    };
}
const _: fn() = || {
    assert_send::<crate::de::Config>();
    assert_sync::<crate::de::Config>();
    assert_unpin::<crate::de::Config>();
    assert_unwind_safe::<crate::de::Config>();
    assert_ref_unwind_safe::<crate::de::Config>();
    assert_send::<crate::de::BuildConfig>();
    assert_sync::<crate::de::BuildConfig>();
    assert_unpin::<crate::de::BuildConfig>();
    assert_unwind_safe::<crate::de::BuildConfig>();
    assert_ref_unwind_safe::<crate::de::BuildConfig>();
    assert_send::<crate::de::TargetConfig>();
    assert_sync::<crate::de::TargetConfig>();
    assert_unpin::<crate::de::TargetConfig>();
    assert_unwind_safe::<crate::de::TargetConfig>();
    assert_ref_unwind_safe::<crate::de::TargetConfig>();
    assert_send::<crate::de::DocConfig>();
    assert_sync::<crate::de::DocConfig>();
    assert_unpin::<crate::de::DocConfig>();
    assert_unwind_safe::<crate::de::DocConfig>();
    assert_ref_unwind_safe::<crate::de::DocConfig>();
    assert_send::<crate::de::EnvConfigValue>();
    assert_sync::<crate::de::EnvConfigValue>();
    assert_unpin::<crate::de::EnvConfigValue>();
    assert_unwind_safe::<crate::de::EnvConfigValue>();
    assert_ref_unwind_safe::<crate::de::EnvConfigValue>();
    assert_send::<crate::de::FutureIncompatReportConfig>();
    assert_sync::<crate::de::FutureIncompatReportConfig>();
    assert_unpin::<crate::de::FutureIncompatReportConfig>();
    assert_unwind_safe::<crate::de::FutureIncompatReportConfig>();
    assert_ref_unwind_safe::<crate::de::FutureIncompatReportConfig>();
    assert_send::<crate::de::CargoNewConfig>();
    assert_sync::<crate::de::CargoNewConfig>();
    assert_unpin::<crate::de::CargoNewConfig>();
    assert_unwind_safe::<crate::de::CargoNewConfig>();
    assert_ref_unwind_safe::<crate::de::CargoNewConfig>();
    assert_send::<crate::de::VersionControlSoftware>();
    assert_sync::<crate::de::VersionControlSoftware>();
    assert_unpin::<crate::de::VersionControlSoftware>();
    assert_unwind_safe::<crate::de::VersionControlSoftware>();
    assert_ref_unwind_safe::<crate::de::VersionControlSoftware>();
    assert_send::<crate::de::HttpConfig>();
    assert_sync::<crate::de::HttpConfig>();
    assert_unpin::<crate::de::HttpConfig>();
    assert_unwind_safe::<crate::de::HttpConfig>();
    assert_ref_unwind_safe::<crate::de::HttpConfig>();
    assert_send::<crate::de::NetConfig>();
    assert_sync::<crate::de::NetConfig>();
    assert_unpin::<crate::de::NetConfig>();
    assert_unwind_safe::<crate::de::NetConfig>();
    assert_ref_unwind_safe::<crate::de::NetConfig>();
    assert_send::<crate::de::RegistriesConfigValue>();
    assert_sync::<crate::de::RegistriesConfigValue>();
    assert_unpin::<crate::de::RegistriesConfigValue>();
    assert_unwind_safe::<crate::de::RegistriesConfigValue>();
    assert_ref_unwind_safe::<crate::de::RegistriesConfigValue>();
    assert_send::<crate::de::RegistriesProtocol>();
    assert_sync::<crate::de::RegistriesProtocol>();
    assert_unpin::<crate::de::RegistriesProtocol>();
    assert_unwind_safe::<crate::de::RegistriesProtocol>();
    assert_ref_unwind_safe::<crate::de::RegistriesProtocol>();
    assert_send::<crate::de::RegistryConfig>();
    assert_sync::<crate::de::RegistryConfig>();
    assert_unpin::<crate::de::RegistryConfig>();
    assert_unwind_safe::<crate::de::RegistryConfig>();
    assert_ref_unwind_safe::<crate::de::RegistryConfig>();
    assert_send::<crate::de::TermConfig>();
    assert_sync::<crate::de::TermConfig>();
    assert_unpin::<crate::de::TermConfig>();
    assert_unwind_safe::<crate::de::TermConfig>();
    assert_ref_unwind_safe::<crate::de::TermConfig>();
    assert_send::<crate::de::TermProgress>();
    assert_sync::<crate::de::TermProgress>();
    assert_unpin::<crate::de::TermProgress>();
    assert_unwind_safe::<crate::de::TermProgress>();
    assert_ref_unwind_safe::<crate::de::TermProgress>();
    assert_send::<crate::de::Color>();
    assert_sync::<crate::de::Color>();
    assert_unpin::<crate::de::Color>();
    assert_unwind_safe::<crate::de::Color>();
    assert_ref_unwind_safe::<crate::de::Color>();
    assert_send::<crate::de::When>();
    assert_sync::<crate::de::When>();
    assert_unpin::<crate::de::When>();
    assert_unwind_safe::<crate::de::When>();
    assert_ref_unwind_safe::<crate::de::When>();
    assert_send::<crate::de::Frequency>();
    assert_sync::<crate::de::Frequency>();
    assert_unpin::<crate::de::Frequency>();
    assert_unwind_safe::<crate::de::Frequency>();
    assert_ref_unwind_safe::<crate::de::Frequency>();
    assert_send::<crate::de::Flags>();
    assert_sync::<crate::de::Flags>();
    assert_unpin::<crate::de::Flags>();
    assert_unwind_safe::<crate::de::Flags>();
    assert_ref_unwind_safe::<crate::de::Flags>();
    assert_send::<crate::de::ConfigRelativePath>();
    assert_sync::<crate::de::ConfigRelativePath>();
    assert_unpin::<crate::de::ConfigRelativePath>();
    assert_unwind_safe::<crate::de::ConfigRelativePath>();
    assert_ref_unwind_safe::<crate::de::ConfigRelativePath>();
    assert_send::<crate::de::PathAndArgs>();
    assert_sync::<crate::de::PathAndArgs>();
    assert_unpin::<crate::de::PathAndArgs>();
    assert_unwind_safe::<crate::de::PathAndArgs>();
    assert_ref_unwind_safe::<crate::de::PathAndArgs>();
    assert_send::<crate::de::StringList>();
    assert_sync::<crate::de::StringList>();
    assert_unpin::<crate::de::StringList>();
    assert_unwind_safe::<crate::de::StringList>();
    assert_ref_unwind_safe::<crate::de::StringList>();
    assert_send::<crate::de::StringOrArray>();
    assert_sync::<crate::de::StringOrArray>();
    assert_unpin::<crate::de::StringOrArray>();
    assert_unwind_safe::<crate::de::StringOrArray>();
    assert_ref_unwind_safe::<crate::de::StringOrArray>();
    assert_send::<crate::easy::Config>();
    assert_not_sync!(crate::easy::Config);
    assert_unpin::<crate::easy::Config>();
    assert_unwind_safe::<crate::easy::Config>();
    assert_not_ref_unwind_safe!(crate::easy::Config);
    assert_send::<crate::easy::BuildConfig>();
    assert_sync::<crate::easy::BuildConfig>();
    assert_unpin::<crate::easy::BuildConfig>();
    assert_unwind_safe::<crate::easy::BuildConfig>();
    assert_ref_unwind_safe::<crate::easy::BuildConfig>();
    assert_send::<crate::easy::TargetConfig>();
    assert_sync::<crate::easy::TargetConfig>();
    assert_unpin::<crate::easy::TargetConfig>();
    assert_unwind_safe::<crate::easy::TargetConfig>();
    assert_ref_unwind_safe::<crate::easy::TargetConfig>();
    assert_send::<crate::easy::DocConfig>();
    assert_sync::<crate::easy::DocConfig>();
    assert_unpin::<crate::easy::DocConfig>();
    assert_unwind_safe::<crate::easy::DocConfig>();
    assert_ref_unwind_safe::<crate::easy::DocConfig>();
    assert_send::<crate::easy::EnvConfigValue>();
    assert_sync::<crate::easy::EnvConfigValue>();
    assert_unpin::<crate::easy::EnvConfigValue>();
    assert_unwind_safe::<crate::easy::EnvConfigValue>();
    assert_ref_unwind_safe::<crate::easy::EnvConfigValue>();
    assert_send::<crate::easy::FutureIncompatReportConfig>();
    assert_sync::<crate::easy::FutureIncompatReportConfig>();
    assert_unpin::<crate::easy::FutureIncompatReportConfig>();
    assert_unwind_safe::<crate::easy::FutureIncompatReportConfig>();
    assert_ref_unwind_safe::<crate::easy::FutureIncompatReportConfig>();
    assert_send::<crate::easy::CargoNewConfig>();
    assert_sync::<crate::easy::CargoNewConfig>();
    assert_unpin::<crate::easy::CargoNewConfig>();
    assert_unwind_safe::<crate::easy::CargoNewConfig>();
    assert_ref_unwind_safe::<crate::easy::CargoNewConfig>();
    assert_send::<crate::easy::HttpConfig>();
    assert_sync::<crate::easy::HttpConfig>();
    assert_unpin::<crate::easy::HttpConfig>();
    assert_unwind_safe::<crate::easy::HttpConfig>();
    assert_ref_unwind_safe::<crate::easy::HttpConfig>();
    assert_send::<crate::easy::NetConfig>();
    assert_sync::<crate::easy::NetConfig>();
    assert_unpin::<crate::easy::NetConfig>();
    assert_unwind_safe::<crate::easy::NetConfig>();
    assert_ref_unwind_safe::<crate::easy::NetConfig>();
    assert_send::<crate::easy::RegistriesConfigValue>();
    assert_sync::<crate::easy::RegistriesConfigValue>();
    assert_unpin::<crate::easy::RegistriesConfigValue>();
    assert_unwind_safe::<crate::easy::RegistriesConfigValue>();
    assert_ref_unwind_safe::<crate::easy::RegistriesConfigValue>();
    assert_send::<crate::easy::RegistryConfig>();
    assert_sync::<crate::easy::RegistryConfig>();
    assert_unpin::<crate::easy::RegistryConfig>();
    assert_unwind_safe::<crate::easy::RegistryConfig>();
    assert_ref_unwind_safe::<crate::easy::RegistryConfig>();
    assert_send::<crate::easy::TermConfig>();
    assert_sync::<crate::easy::TermConfig>();
    assert_unpin::<crate::easy::TermConfig>();
    assert_unwind_safe::<crate::easy::TermConfig>();
    assert_ref_unwind_safe::<crate::easy::TermConfig>();
    assert_send::<crate::easy::TermProgressConfig>();
    assert_sync::<crate::easy::TermProgressConfig>();
    assert_unpin::<crate::easy::TermProgressConfig>();
    assert_unwind_safe::<crate::easy::TermProgressConfig>();
    assert_ref_unwind_safe::<crate::easy::TermProgressConfig>();
    assert_send::<crate::easy::Flags>();
    assert_sync::<crate::easy::Flags>();
    assert_unpin::<crate::easy::Flags>();
    assert_unwind_safe::<crate::easy::Flags>();
    assert_ref_unwind_safe::<crate::easy::Flags>();
    assert_send::<crate::easy::PathAndArgs>();
    assert_sync::<crate::easy::PathAndArgs>();
    assert_unpin::<crate::easy::PathAndArgs>();
    assert_unwind_safe::<crate::easy::PathAndArgs>();
    assert_ref_unwind_safe::<crate::easy::PathAndArgs>();
    assert_send::<crate::easy::StringList>();
    assert_sync::<crate::easy::StringList>();
    assert_unpin::<crate::easy::StringList>();
    assert_unwind_safe::<crate::easy::StringList>();
    assert_ref_unwind_safe::<crate::easy::StringList>();
    assert_send::<crate::error::Error>();
    assert_sync::<crate::error::Error>();
    assert_unpin::<crate::error::Error>();
    assert_not_unwind_safe!(crate::error::Error);
    assert_not_ref_unwind_safe!(crate::error::Error);
    assert_send::<crate::resolve::ResolveOptions>();
    assert_sync::<crate::resolve::ResolveOptions>();
    assert_unpin::<crate::resolve::ResolveOptions>();
    assert_unwind_safe::<crate::resolve::ResolveOptions>();
    assert_ref_unwind_safe::<crate::resolve::ResolveOptions>();
    assert_send::<crate::resolve::ResolveContext>();
    assert_not_sync!(crate::resolve::ResolveContext);
    assert_unpin::<crate::resolve::ResolveContext>();
    assert_unwind_safe::<crate::resolve::ResolveContext>();
    assert_not_ref_unwind_safe!(crate::resolve::ResolveContext);
    assert_send::<crate::resolve::TargetTripleRef<'_>>();
    assert_sync::<crate::resolve::TargetTripleRef<'_>>();
    assert_unpin::<crate::resolve::TargetTripleRef<'_>>();
    assert_unwind_safe::<crate::resolve::TargetTripleRef<'_>>();
    assert_ref_unwind_safe::<crate::resolve::TargetTripleRef<'_>>();
    assert_send::<crate::resolve::TargetTriple>();
    assert_sync::<crate::resolve::TargetTriple>();
    assert_unpin::<crate::resolve::TargetTriple>();
    assert_unwind_safe::<crate::resolve::TargetTriple>();
    assert_ref_unwind_safe::<crate::resolve::TargetTriple>();
    assert_send::<crate::resolve::RustcVersion>();
    assert_sync::<crate::resolve::RustcVersion>();
    assert_unpin::<crate::resolve::RustcVersion>();
    assert_unwind_safe::<crate::resolve::RustcVersion>();
    assert_ref_unwind_safe::<crate::resolve::RustcVersion>();
    assert_send::<crate::resolve::CargoVersion>();
    assert_sync::<crate::resolve::CargoVersion>();
    assert_unpin::<crate::resolve::CargoVersion>();
    assert_unwind_safe::<crate::resolve::CargoVersion>();
    assert_ref_unwind_safe::<crate::resolve::CargoVersion>();
    assert_send::<crate::value::Value<()>>();
    assert_send::<crate::value::Value<NotSync>>();
    assert_not_send!(crate::value::Value<NotSend>);
    assert_sync::<crate::value::Value<()>>();
    assert_sync::<crate::value::Value<NotSend>>();
    assert_not_sync!(crate::value::Value<NotSync>);
    assert_unpin::<crate::value::Value<()>>();
    assert_not_unpin!(crate::value::Value<NotUnpin>);
    assert_unwind_safe::<crate::value::Value<()>>();
    assert_not_unwind_safe!(crate::value::Value<NotUnwindSafe>);
    assert_ref_unwind_safe::<crate::value::Value<()>>();
    assert_not_ref_unwind_safe!(crate::value::Value<NotRefUnwindSafe>);
    assert_send::<crate::value::Definition>();
    assert_sync::<crate::value::Definition>();
    assert_unpin::<crate::value::Definition>();
    assert_unwind_safe::<crate::value::Definition>();
    assert_ref_unwind_safe::<crate::value::Definition>();
    assert_send::<crate::walk::Walk<'_>>();
    assert_sync::<crate::walk::Walk<'_>>();
    assert_unpin::<crate::walk::Walk<'_>>();
    assert_unwind_safe::<crate::walk::Walk<'_>>();
    assert_ref_unwind_safe::<crate::walk::Walk<'_>>();
};
".

Definition no_blanks (s : str) : str := filter (fun c => negb (ws1 c)) s.

(** ** What is written *)
Definition each (f : str -> str) (l : list str) : str := flat_map f l.
(** tools/codegen/src/main.rs:73-85, 106-128, 137-181, 241-256 *)
Definition arm_text (a : arm) : str :=
  match a with
  | ArmNamed v pat calls =>
      B "Self::" ++ v ++ B "{" ++ join_with "," pat ++ B "}=>{" ++ each (fun f => f ++ B ".set_path(path);") calls ++ B "}"
  | ArmUnnamed v => B "Self::" ++ v ++ B "(v)=>{v.set_path(path);}"
  end.
Definition set_path_text (ty body : str) : str :=
  B "implSetPathforcrate::" ++ ty ++ B "{fnset_path(&mutself,path:&Path){" ++ body ++ B "}}".
Definition impl_text (i : impl) : str :=
  match i with
  | ImplMerge ty calls =>
      B "implMergeforcrate::" ++ ty ++ B "{fnmerge(&mutself,low:Self,force:bool)->Result<()>{"
      ++ each (fun f => B "self." ++ f ++ B ".merge(low." ++ f ++ B ",force)?;") calls ++ B "Ok(())}}"
  | ImplSetPath ty calls => set_path_text ty (each (fun f => B "self." ++ f ++ B ".set_path(path);") calls)
  | ImplSetPathInner ty => set_path_text ty (B "self.0.set_path(path);")
  | ImplSetPathMatch ty arms => set_path_text ty (B "matchself{" ++ flat_map arm_text arms ++ B "}")
  | ImplIsNone ty calls =>
      B "implcrate::" ++ ty ++ B "{pub(crate)fnis_none(&self)->bool{"
      ++ match map (fun f => B "self." ++ f ++ B ".is_none()") calls with
         | [] => []
         | t :: ts => t ++ flat_map (fun t => B "&&" ++ t) ts
         end ++ B "}}"
  end.
(** tools/codegen/src/main.rs:345-478 *)
Definition trait_text (t : auto) : str :=
  match t with
  | Send => B "send" | Sync => B "sync" | Unpin => B "unpin"
  | UnwindSafe => B "unwind_safe" | RefUnwindSafe => B "ref_unwind_safe"
  end.
Definition helper_text (h : helper) : str :=
  match h with
  | UnitType => B "()" | NotSend => B "NotSend" | NotSync => B "NotSync" | NotUnpin => B "NotUnpin"
  | NotUnwindSafe => B "NotUnwindSafe" | NotRefUnwindSafe => B "NotRefUnwindSafe"
  end.
Definition assertion_text (a : assertion) : str :=
  let args := repeat (B "'_") (as_lifetimes a) ++ map helper_text (as_args a) in
  let ty := B "crate::" ++ as_path a ++ match args with [] => [] | _ => B "<" ++ join_with "," args ++ B ">" end in
  if as_holds a then B "assert_" ++ trait_text (as_trait a) ++ B "::<" ++ ty ++ B ">();"
  else B "assert_not_" ++ trait_text (as_trait a) ++ B "!(" ++ ty ++ B ");".

(** ** The files *)
Definition same (function : string) (text contents : str) : Prop :=
  exists rest, text = header (B function) ++ rest /\ no_blanks rest = contents.

Example de_rs : exists l, gen_de de_files = Some l
  /\ same "gen_de" de_text (B "usestd::path::Path;usecrate::{error::Result,merge::Merge,value::SetPath};" ++ flat_map impl_text l).
Proof. exists gen_de_file. split; [vm_compute; reflexivity|]. exists (skipn (length (header (B "gen_de"))) de_text). split; vm_compute; reflexivity. Qed.
Example is_none_rs : exists l, gen_is_none is_none_files = Some l /\ same "gen_is_none" is_none_text (flat_map impl_text l).
Proof. exists gen_is_none_file. split; [vm_compute; reflexivity|]. exists (skipn (length (header (B "gen_is_none"))) is_none_text). split; vm_compute; reflexivity. Qed.
(** tools/codegen/src/main.rs:494-553: the fixed part, with the layout of [prettyplease] *)
Definition assert_fixed : str := B "#![allow(
    dead_code,
    unused_macros,
    clippy::std_instead_of_alloc,
    clippy::std_instead_of_core,
)]
fn assert_send<T: ?Sized + Send>() {}
fn assert_sync<T: ?Sized + Sync>() {}
fn assert_unpin<T: ?Sized + Unpin>() {}
fn assert_unwind_safe<T: ?Sized + std::panic::UnwindSafe>() {}
fn assert_ref_unwind_safe<T: ?Sized + std::panic::RefUnwindSafe>() {}
/// `Send` & `!Sync`
struct NotSync(core::cell::UnsafeCell<()>);
/// `!Send` & `Sync`
struct NotSend(std::sync::MutexGuard<'static, ()>);
/// `!Send` & `!Sync`
struct NotSendSync(*const ());
/// `!Unpin`
struct NotUnpin(core::marker::PhantomPinned);
/// `!UnwindSafe`
struct NotUnwindSafe(&'static mut ());
/// `!RefUnwindSafe`
struct NotRefUnwindSafe(core::cell::UnsafeCell<()>);
macro_rules! assert_not_send {
    ($ty:ty) => {
        static_assertions::assert_not_impl_all!($ty : Send);
    };
}
macro_rules! assert_not_sync {
    ($ty:ty) => {
        static_assertions::assert_not_impl_all!($ty : Sync);
    };
}
macro_rules! assert_not_unpin {
    ($ty:ty) => {
        static_assertions::assert_not_impl_all!($ty : Unpin);
    };
}
macro_rules! assert_not_unwind_safe {
    ($ty:ty) => {
        static_assertions::assert_not_impl_all!($ty : std::panic::UnwindSafe);
    };
}
macro_rules! assert_not_ref_unwind_safe {
    ($ty:ty) => {
        static_assertions::assert_not_impl_all!($ty : std::panic::RefUnwindSafe);
    };
}
".
Example assert_impl_rs : exists l, gen_assert_impl crate_files = Some l
  /\ same "gen_assert_impl" assert_impl_text
       (no_blanks assert_fixed ++ B "const_:fn()=||{" ++ flat_map assertion_text l ++ B "};").
Proof. exists assert_file. split; [vm_compute; reflexivity|]. exists (skipn (length (header (B "gen_assert_impl"))) assert_impl_text). split; vm_compute; reflexivity. Qed.
(** Formatting it again changes nothing. *)
Example assert_impl_formatted :
  format_macros (E := unit) release (skipn (length (header (B "gen_assert_impl"))) assert_impl_text)
  = Ok (skipn (length (header (B "gen_assert_impl"))) assert_impl_text).
Proof. vm_compute. reflexivity. Qed.

(** tools/codegen/src/file.rs:108-121 [test_format_macros] *)
Example test_format_macros :
  map (fun s => format_macros (E := unit) debug s)
    [B "m!(crate ::a::b)"; B "(crate ::a::b)"; B "m!(crate ::a::b < () >)"; B "m!(crate ::a::b <  >)"; B "if < 0 "; B "if > 0 "]
  = map (fun s => Ok s)
    [B "m!(crate::a::b)"; B "(crate ::a::b)"; B "m!(crate::a::b<()>)"; B "m!(crate::a::b<>)"; B "if < 0 "; B "if > 0 "].
Proof. vm_compute. reflexivity. Qed.
